(** Proofs about several topologies in one program. *)
From Verif Require Import BaseLemmas CodecLemmas EthAddrModel TopoModel TopoNames TopoProofs TopoSpec TopoInv TopoMore TopoAddr UnionModel UnionSpec.
#[local] Open Scope string_scope.
#[local] Open Scope Z_scope.
#[local] Open Scope list_scope.

(** ** Lists *)
Lemma put_length {A} (x : A) l : forall i, List.length (put_at i x l) = List.length l.
Proof. induction l as [|y l IH]; intros [|i]; cbn [put_at List.length]; auto. Qed.
Lemma put_same {A} (x : A) l : forall i, (i < List.length l)%nat -> nth_error (put_at i x l) i = Some x.
Proof. induction l as [|y l IH]; intros [|i] H; cbn [put_at List.length nth_error] in *; try lia; auto. apply IH. lia. Qed.
Lemma put_other {A} (x : A) l : forall i j, i <> j -> nth_error (put_at i x l) j = nth_error l j.
Proof. induction l as [|y l IH]; intros [|i] [|j] H; cbn [put_at nth_error]; auto; lia. Qed.
Lemma put_in {A} (x y : A) l i : In y (put_at i x l) -> y = x \/ In y l.
Proof. revert i. induction l as [|z l IH]; intros [|i] H; cbn [put_at In] in *; auto; intuition. destruct (IH _ H0); auto. Qed.
Lemma deref_put h n : forall i j, (i < List.length h)%nat -> deref (put_at i n h) j = if Nat.eqb i j then n else deref h j.
Proof. unfold deref. induction h as [|y h IH]; intros [|i] [|j] H; cbn [put_at nth List.length Nat.eqb] in *; try lia; auto. apply IH. lia. Qed.
Lemma write_length ids : forall h ns, List.length (write h ids ns) = List.length h.
Proof. unfold write. induction ids as [|i ids IH]; intros h [|n ns]; cbn [combine fold_left]; auto. rewrite IH. apply put_length. Qed.
Lemma write_out ids : forall h ns j, Forall (fun i => i < List.length h)%nat ids -> ~ In j ids -> deref (write h ids ns) j = deref h j.
Proof. unfold write. induction ids as [|i ids IH]; intros h [|n ns] j F N; cbn [combine fold_left]; auto. inversion F as [|? ? F1 F2]; subst.
  cbn [In] in N. rewrite IH; [|rewrite put_length; exact F2|tauto]. cbn [fst snd]. rewrite deref_put by exact F1. destruct (Nat.eqb_spec i j); [tauto|reflexivity]. Qed.
Lemma write_in ids : forall h ns, Forall (fun i => i < List.length h)%nat ids -> NoDup ids -> List.length ids = List.length ns -> map (deref (write h ids ns)) ids = ns.
Proof. induction ids as [|i ids IH]; intros h [|n ns] F N L; cbn [List.length] in L; try lia; [reflexivity|]. inversion F as [|? ? F1 F2]; subst. inversion N as [|? ? N1 N2]; subst.
  cbn [map]. f_equal.
  - change (deref (write (put_at i n h) ids ns) i = n). rewrite write_out; [|rewrite put_length; exact F2|exact N1]. rewrite deref_put by exact F1. rewrite Nat.eqb_refl. reflexivity.
  - change (map (deref (write (put_at i n h) ids ns)) ids = ns). apply IH; [rewrite put_length; exact F2|exact N2|lia]. Qed.
Lemma deref_app h k i : (i < List.length h)%nat -> deref (h ++ k) i = deref h i.
Proof. intros H. unfold deref. apply app_nth1. exact H. Qed.
Lemma deref_new k : forall h, map (deref (h ++ k)) (seq (List.length h) (List.length k)) = k.
Proof. induction k as [|n k IH]; intros h; [reflexivity|]. cbn [List.length seq map]. f_equal.
  - unfold deref. rewrite app_nth2 by lia. rewrite Nat.sub_diag. reflexivity.
  - specialize (IH (h ++ [n])). rewrite <- app_assoc, app_length in IH. cbn [app List.length] in IH. rewrite Nat.add_1_r in IH. exact IH. Qed.
Lemma combine_split {A B} (l : list (A * B)) : combine (map fst l) (map snd l) = l.
Proof. induction l as [|[a b] l IH]; [reflexivity|]. cbn [map fst snd combine]. rewrite IH. reflexivity. Qed.
Lemma map_snd_combine {A B} (a : list A) : forall b : list B, List.length a = List.length b -> map snd (combine a b) = b.
Proof. induction a as [|x a IH]; intros [|y b] L; cbn [List.length] in L; try lia; [reflexivity|]. cbn [combine map snd]. rewrite IH by lia. reflexivity. Qed.
Lemma map_fst_combine {A B} (a : list A) : forall b : list B, List.length a = List.length b -> map fst (combine a b) = a.
Proof. induction a as [|x a IH]; intros [|y b] L; cbn [List.length] in L; try lia; [reflexivity|]. cbn [combine map fst]. rewrite IH by lia. reflexivity. Qed.

(** ** What a topology shows *)
Lemma show_of h t ids : map (deref h) ids = map snd (tp_nodes t) -> show h (mkW t ids) = t.
Proof. intros H. unfold show. cbn [w_t w_ids]. rewrite H. unfold nodes, dkeys. rewrite combine_split. destruct t. reflexivity. Qed.
Lemma show_frame h h' x : (forall i, In i (w_ids x) -> deref h' i = deref h i) -> show h' x = show h x.
Proof. intros H. unfold show. f_equal. f_equal. apply map_ext_in. exact H. Qed.
Definition wf_top (h : list tnode) (x : wtop) : Prop :=
  NoDup (w_ids x) /\ List.length (w_ids x) = List.length (tp_nodes (w_t x)) /\ Forall (fun i => i < List.length h)%nat (w_ids x).
Definition Wf (w : world) : Prop := Forall (wf_top (w_heap w)) (w_tops w).
Lemma wf_longer h h' x : (List.length h <= List.length h')%nat -> wf_top h x -> wf_top h' x.
Proof. intros L (A & B & C). split; [exact A|]. split; [exact B|]. eapply Forall_impl; [|exact C]. cbn beta. lia. Qed.
Lemma show_objs h x : wf_top h x -> map snd (tp_nodes (show h x)) = map (deref h) (w_ids x).
Proof. intros (_ & L & _). unfold show. cbn [with_nodes tp_nodes]. apply map_snd_combine. unfold nodes, dkeys. rewrite !map_length. symmetry. exact L. Qed.
Lemma show_names h x : wf_top h x -> nodes (show h x) = nodes (w_t x).
Proof. intros (_ & L & _). unfold show, nodes at 1, dkeys at 1. cbn [with_nodes tp_nodes]. apply map_fst_combine. unfold nodes, dkeys. rewrite !map_length. symmetry. exact L. Qed.
Lemma show_length h x : wf_top h x -> List.length (tp_nodes (show h x)) = List.length (w_ids x).
Proof. intros H. rewrite <- (map_length snd), show_objs by exact H. apply map_length. Qed.

(** ** One operation *)
Definition stays (o : topo_op) : Prop := match o with TAdd _ _ | TRemoveNode _ | TReload => False | _ => True end.
Lemma update_length k n m t : dget k (tp_nodes t) = Some m -> List.length (tp_nodes (node_update k n t)) = List.length (tp_nodes t).
Proof. intros G. apply dget_nodes in G. rewrite <- (map_length fst), <- (map_length fst (tp_nodes t)). change (map fst) with (@dkeys tnode). 
  change (List.length (nodes (node_update k n t)) = List.length (nodes t)). rewrite nodes_update by exact G. reflexivity. Qed.
Lemma link_up_length u v t : List.length (tp_nodes (fst (link_up u v t))) = List.length (tp_nodes t).
Proof. unfold link_up. destruct (din u (tp_nodes t)); [|reflexivity]. destruct (din v (tp_nodes t)); [|reflexivity]. cbn [negb].
  set (mt := if tp_auto t then _ else _). assert (N1 : tp_nodes (snd mt) = tp_nodes t) by (unfold mt; destruct (tp_auto t); reflexivity).
  destruct mt as [[m1 m2] t1]. cbn [snd] in N1. rewrite <- N1. destruct (dget u (tp_nodes t1)) as [n1|] eqn:G1; [|reflexivity].
  destruct (node_add_if m1 n1) as [n1' [i1|e]]; [|apply (update_length _ _ _ _ G1)].
  destruct (dget v _) as [n2|] eqn:G2; [|apply (update_length _ _ _ _ G1)].
  destruct (node_add_if m2 n2) as [n2' [i2|e]]; cbn [fst with_edges tp_nodes]; rewrite (update_length _ _ _ _ G2); apply (update_length _ _ _ _ G1). Qed.
Lemma assign_one_length plen last d n s : List.length (tp_nodes (fst (fst (assign_one plen last d n s)))) = List.length (tp_nodes (fst s)).
Proof. destruct s as [t z]. unfold assign_one. destruct (dget n (tp_nodes t)) as [nd|] eqn:G; [|reflexivity].
  destruct (kind_eqb _ _); [reflexivity|]. destruct (dget n d) as [[s|? |? |]|]; try reflexivity. destruct (dget s (tn_ifs nd)); [|reflexivity].
  destruct (plen =? 32); [reflexivity|]. destruct (last <? z); [reflexivity|]. apply (update_length _ _ _ _ G). Qed.
Lemma assign_loop_length plen last l : forall s, List.length (tp_nodes (fst (fst (assign_loop plen last l s)))) = List.length (tp_nodes (fst s)).
Proof. induction l as [|[u v] r IH]; intros s; cbn [assign_loop]; [reflexivity|]. destruct (get_link u v (fst s)) as [d|]; [|reflexivity].
  pose proof (assign_one_length plen last d u s) as I1. destruct (assign_one plen last d u s) as [s1 [e|]]; [exact I1|].
  pose proof (assign_one_length plen last d v s1) as I2. destruct (assign_one plen last d v s1) as [s2 [e|]]; cbn [fst] in *; [lia|]. rewrite IH. lia. Qed.
Lemma step_length t o : stays o -> List.length (tp_nodes (topo_step t o)) = List.length (tp_nodes t).
Proof. intros S. destruct o; cbn [stays] in S; try tauto; cbn [topo_step].
  - pose proof (link_up_length u v t) as K. unfold add_link. destruct (link_up u v t) as [t' [e|]]; [exact K|]. rewrite (proj1 (set_link_nodes _ _ _ _ _)). exact K.
  - rewrite (proj1 (set_link_nodes _ _ _ _ _)). reflexivity.
  - unfold remove_link. destruct (has_link _ _ _); reflexivity.
  - unfold set_addresses. destruct (dget node (tp_nodes t)) as [nd|] eqn:G; [|reflexivity]. destruct (dget intf (tn_ifs nd)); [|reflexivity].
    destruct (match mac with Some _ => _ | None => _ end); [|reflexivity]. apply (update_length _ _ _ _ G).
  - unfold assign_ips. destruct (match prefix with Some _ => _ | None => _ end) as [a plen].
    pose proof (assign_loop_length plen (hosts_last a plen) (sorted (links t)) (t, hosts_first a plen)) as H. destruct (assign_loop _ _ _ _). exact H.
  - unfold label_prefix. destruct prefix as [p|].
    + unfold relabel. destruct (mapr _ _); [|reflexivity]. apply map_length.
    + destruct (edge_list t); [apply map_length|reflexivity]. Qed.
Lemma dset_new {V} k (v : V) d : din k d = false -> dset k v d = d ++ [(k, v)].
Proof. unfold din. induction d as [|[k' v'] d IH]; [reflexivity|]. cbn [dget dset app]. destruct (str_eqb k k'); [discriminate|]. intros H. rewrite IH by exact H. reflexivity. Qed.
Lemma add_app t k name : exists l, tp_nodes (topo_step t (TAdd k name)) = tp_nodes t ++ l.
Proof. assert (A : forall s x, tp_nodes x = tp_nodes t -> exists l, tp_nodes (fst (add_node s k x)) = tp_nodes t ++ l).
  { intros s x E. unfold add_node. destruct (din s (tp_nodes x)) eqn:D; [exists []; rewrite app_nil_r; exact E|]. cbn [fst with_nodes tp_nodes]. rewrite dset_new by exact D. rewrite E. eauto. }
  cbn [topo_step]. unfold add. destruct name as [s|]; [apply A; reflexivity|]. destruct (fresh _ _ _ _) as [[s n]|]; [|exists []; symmetry; apply app_nil_r]. apply A. apply counter_nodes. Qed.
Lemma ddel_ids h n : forall names ids, List.length names = List.length ids ->
  map (deref h) (map snd (ddel n (combine names ids))) = map snd (ddel n (combine names (map (deref h) ids))).
Proof. induction names as [|k names IH]; intros [|i ids] L; cbn [List.length] in L; try lia; [reflexivity|]. cbn [combine map ddel]. destruct (str_eqb n k).
  - rewrite !map_snd_combine by (rewrite ?map_length; lia). reflexivity.
  - cbn [map snd]. rewrite IH by lia. reflexivity. Qed.
Lemma ddel_sub {V} n (d : dict V) x : In x (map snd (ddel n d)) -> In x (map snd d).
Proof. induction d as [|[k v] d IH]; [auto|]. cbn [ddel]. destruct (str_eqb n k); cbn [map snd In]; [auto|]. intros [H|H]; auto. Qed.
Lemma ddel_nodup {V} n (d : dict V) : NoDup (map snd d) -> NoDup (map snd (ddel n d)).
Proof. induction d as [|[k v] d IH]; intros N; [constructor|]. cbn [map snd] in N. inversion N as [|? ? N1 N2]; subst. cbn [ddel]. destruct (str_eqb n k); [exact N2|].
  cbn [map snd]. constructor; [|auto]. intros H. apply N1. eapply ddel_sub. exact H. Qed.

(** What one operation on x does to the heap and to the topology. *)
Record op_ok (h : list tnode) (x : wtop) (o : topo_op) (h' : list tnode) (x' : wtop) : Prop := {
  ok_wf : wf_top h' x';
  ok_show : show h' x' = topo_step (show h x) o;
  ok_len : (List.length h <= List.length h')%nat;
  ok_ids : forall i, In i (w_ids x') -> In i (w_ids x) \/ (List.length h <= i)%nat;
  ok_out : forall i, (i < List.length h)%nat -> ~ In i (w_ids x) -> deref h' i = deref h i }.
Lemma w_op_some i o w x : nth_error (w_tops w) i = Some x -> wf_top (w_heap w) x ->
  exists h' x', w_op i o w = mkWorld h' (put_at i x' (w_tops w)) /\ op_ok (w_heap w) x o h' x'.
Proof. intros E F. unfold w_op. rewrite E. set (h := w_heap w). set (t := show h x). fold h in F. pose proof F as (N & L & B).
  assert (S : stays o -> op_ok h x o (write h (w_ids x) (map snd (tp_nodes (topo_step t o)))) (mkW (topo_step t o) (w_ids x))).
  { intros S. assert (L2 : List.length (w_ids x) = List.length (map snd (tp_nodes (topo_step t o)))).
    { rewrite map_length, step_length by exact S. symmetry. apply (show_length h x F). }
    split; cbn [w_ids w_t].
    - split; [exact N|]. split; [rewrite map_length in L2; exact L2|]. cbn [w_ids]. rewrite write_length. exact B.
    - apply show_of. apply write_in; assumption.
    - rewrite write_length. lia.
    - auto.
    - intros j _ Hj. apply write_out; assumption. }
  destruct o; try (eexists _, _; split; [reflexivity|apply S; exact Logic.I]); clear S.
  - destruct (add_app t k name) as [l El]. set (new := map snd (skipn (List.length (w_ids x)) (tp_nodes (topo_step t (TAdd k name))))).
    assert (En : new = map snd l).
    { unfold new. rewrite El, skipn_app. rewrite <- (show_length h x F). fold t. rewrite Nat.sub_diag, skipn_all. reflexivity. }
    eexists _, _. split; [reflexivity|]. split; cbn [w_ids w_t].
    + split; [|split]; cbn [w_ids w_t].
      * apply NoDup_app; [exact N|apply seq_NoDup|]. intros j J1 J2. apply in_seq in J2. rewrite Forall_forall in B. specialize (B j J1). lia.
      * fold h; fold t. rewrite El, !app_length, seq_length, En, map_length. rewrite <- (show_length h x F). reflexivity.
      * apply Forall_app. split; [eapply Forall_impl; [|exact B]; cbn beta; intros j; rewrite app_length; lia|].
        apply Forall_forall. intros j J. apply in_seq in J. rewrite app_length. lia.
    + fold h; fold t. apply show_of. rewrite map_app, El, map_app, deref_new, <- En. f_equal. unfold t. rewrite show_objs by exact F. apply map_ext_in. intros j J. apply deref_app.
      rewrite Forall_forall in B. auto.
    + rewrite app_length. lia.
    + intros j J. apply in_app_or in J. destruct J as [J|J]; [auto|]. apply in_seq in J. right. lia.
    + intros j J _. apply deref_app. exact J.
  - eexists _, _. split; [reflexivity|].
    assert (LN : List.length (nodes t) = List.length (w_ids x)) by (unfold nodes, dkeys; rewrite map_length; apply (show_length h x F)).
    assert (Q : map (deref h) (map snd (ddel name (combine (nodes t) (w_ids x)))) = map snd (tp_nodes (topo_step t (TRemoveNode name)))).
    { rewrite ddel_ids by exact LN. rewrite <- (show_objs h x F). fold t. unfold nodes, dkeys. rewrite combine_split. cbn [topo_step]. unfold remove_node.
      destruct (din name (tp_nodes t)) eqn:D; [reflexivity|]. cbn [fst]. f_equal. unfold din in D. destruct (dget name (tp_nodes t)) eqn:G; [discriminate|]. clear -G.
      induction (tp_nodes t) as [|[k v] d IH]; [reflexivity|]. cbn [dget ddel] in *. destruct (str_eqb name k); [discriminate|]. rewrite IH by exact G. reflexivity. }
    split; cbn [w_ids w_t].
    + split; [|split]; cbn [w_ids w_t].
      * apply ddel_nodup. rewrite map_snd_combine by exact LN. exact N.
      * rewrite <- (map_length (deref h)), Q. apply map_length.
      * apply Forall_forall. intros j J. apply ddel_sub in J. rewrite map_snd_combine in J by exact LN. rewrite Forall_forall in B. auto.
    + apply show_of. exact Q.
    + lia.
    + intros j J. apply ddel_sub in J. rewrite map_snd_combine in J by exact LN. auto.
    + auto.
  - cbn [topo_step]. destruct (unserialize (serialize t)) as [t'|e] eqn:U; eexists _, _; (split; [reflexivity|]).
    + split; cbn [w_ids w_t].
      * split; [|split]; cbn [w_ids w_t]; [apply seq_NoDup|rewrite seq_length; reflexivity|]. apply Forall_forall. intros j J. apply in_seq in J. rewrite app_length, map_length. lia.
      * cbn [topo_step]. fold t. rewrite U. apply show_of. rewrite <- (map_length snd (tp_nodes t')) at 1. apply deref_new.
      * rewrite app_length. lia.
      * intros j J. apply in_seq in J. lia.
      * intros j J _. apply deref_app. exact J.
    + split; cbn [w_ids w_t]; auto.
      * split; [exact N|]. split; [|exact B]. cbn [w_ids w_t]. symmetry. apply (show_length h x F).
      * cbn [topo_step]. fold t. rewrite U. apply show_of. symmetry. apply (show_objs h x F). Qed.

(** ** Worlds *)
Lemma wf_nth w i x : Wf w -> nth_error (w_tops w) i = Some x -> wf_top (w_heap w) x.
Proof. intros F E. apply nth_error_In in E. unfold Wf in F. rewrite Forall_forall in F. auto. Qed.
Lemma nth_lt {A} (l : list A) i x : nth_error l i = Some x -> (i < List.length l)%nat.
Proof. intros E. apply nth_error_Some. congruence. Qed.
Lemma look_op i o w : Wf w -> look i (w_op i o w) = option_map (fun t => topo_step t o) (look i w).
Proof. intros F. unfold look. destruct (nth_error (w_tops w) i) as [x|] eqn:E.
  - destruct (w_op_some i o w x E (wf_nth _ _ _ F E)) as (h & x' & -> & K). cbn [w_heap w_tops]. rewrite put_same by (eapply nth_lt; exact E). cbn [option_map]. rewrite (ok_show _ _ _ _ _ K). reflexivity.
  - unfold w_op. rewrite E. rewrite E. reflexivity. Qed.
Lemma wf_op i o w : Wf w -> Wf (w_op i o w).
Proof. intros F. destruct (nth_error (w_tops w) i) as [x|] eqn:E; [|unfold w_op; rewrite E; exact F].
  destruct (w_op_some i o w x E (wf_nth _ _ _ F E)) as (h & x' & -> & K). unfold Wf in *. cbn [w_heap w_tops]. rewrite Forall_forall in *. intros y Y. apply put_in in Y as [->|Y]; [apply K|].
  eapply wf_longer; [apply K|]. auto. Qed.
Definition apart (a b : list nat) : Prop := forall i, In i a -> In i b -> False.
Lemma disjoint_apart a b : disjoint a b = true <-> apart a b.
Proof. unfold disjoint, apart. rewrite forallb_forall. split.
  - intros H i A B. specialize (H i A). apply negb_true_iff in H. assert (K : existsb (Nat.eqb i) b = true) by (apply existsb_exists; exists i; split; [exact B|apply Nat.eqb_refl]). congruence.
  - intros H i A. apply negb_true_iff. destruct (existsb (Nat.eqb i) b) eqn:K; [|reflexivity]. apply existsb_exists in K as (j & J & Q). apply Nat.eqb_eq in Q. subst j. destruct (H i A J). Qed.
Lemma look_other i j o w x y : Wf w -> nth_error (w_tops w) i = Some x -> nth_error (w_tops w) j = Some y -> apart (w_ids x) (w_ids y) -> i <> j ->
  look j (w_op i o w) = look j w.
Proof. intros F E1 E2 A N. destruct (w_op_some i o w x E1 (wf_nth _ _ _ F E1)) as (h & x' & -> & K). unfold look. cbn [w_heap w_tops]. rewrite put_other by exact N. rewrite E2. cbn [option_map].
  f_equal. apply show_frame. intros k Hk. destruct (wf_nth _ _ _ F E2) as (_ & _ & B). rewrite Forall_forall in B. apply (ok_out _ _ _ _ _ K); [auto|]. intros Hx. exact (A k Hx Hk). Qed.
Definition Alone (n : nat) (w : world) : Prop := forall x j y, nth_error (w_tops w) n = Some x -> nth_error (w_tops w) j = Some y -> j <> n -> apart (w_ids x) (w_ids y).
Lemma alone_op i o n w : Wf w -> Alone n w -> Alone n (w_op i o w).
Proof. intros F A. destruct (nth_error (w_tops w) i) as [z|] eqn:E; [|unfold w_op; rewrite E; exact A].
  destruct (w_op_some i o w z E (wf_nth _ _ _ F E)) as (h & z' & -> & K). intros x j y X Y N k K1 K2. cbn [w_tops] in X, Y. pose proof (nth_lt _ _ _ E) as L.
  destruct (Nat.eq_dec i n) as [->|I1]; [|destruct (Nat.eq_dec i j) as [->|I2]].
  - rewrite put_same in X by exact L. injection X as <-. rewrite put_other in Y by auto. destruct (ok_ids _ _ _ _ _ K k K1) as [Q|Q]; [exact (A z j y E Y N k Q K2)|].
    destruct (wf_nth _ _ _ F Y) as (_ & _ & B). rewrite Forall_forall in B. specialize (B k K2). lia.
  - rewrite put_same in Y by exact L. injection Y as <-. rewrite put_other in X by auto. destruct (ok_ids _ _ _ _ _ K k K2) as [Q|Q]; [exact (A x j z X E N k K1 Q)|].
    destruct (wf_nth _ _ _ F X) as (_ & _ & B). rewrite Forall_forall in B. specialize (B k K1). lia.
  - rewrite put_other in X by auto. rewrite put_other in Y by auto. exact (A x j y X Y N k K1 K2). Qed.

(** *** Union *)
Lemma relabel_length p t t' : relabel p t = Ok t' -> List.length (tp_nodes t') = List.length (tp_nodes t).
Proof. unfold relabel. destruct (mapr _ _); [|discriminate]. cbn [bindr]. intros H. apply ok_inj in H. subst t'. apply map_length. Qed.
Lemma relabel_objs p t t' : relabel p t = Ok t' -> map snd (tp_nodes t') = map snd (tp_nodes t) /\ tp_name t' = tp_name t.
Proof. unfold relabel. destruct (mapr _ _); [|discriminate]. cbn [bindr]. intros H. apply ok_inj in H. subst t'. cbn [with_edges with_nodes tp_nodes tp_name]. rewrite map_map. auto. Qed.
Definition ren_or (ren : bool) (t : topo) : res topo := if ren then relabel (tp_name t) t else Ok t.
Lemma ren_objs ren t t' : ren_or ren t = Ok t' -> map snd (tp_nodes t') = map snd (tp_nodes t) /\ tp_name t' = tp_name t.
Proof. destruct ren; cbn [ren_or]; [apply relabel_objs|]. intros H. apply ok_inj in H. subst. auto. Qed.
Lemma ren_top ren h x a : wf_top h x -> ren_or ren (show h x) = Ok a -> wf_top h (mkW a (w_ids x)) /\ show h (mkW a (w_ids x)) = a.
Proof. intros F E. apply ren_objs in E as [E _]. split.
  - destruct F as (N & L & B). split; [exact N|]. split; [|exact B]. cbn [w_ids w_t]. rewrite <- (map_length snd (tp_nodes a)), E, (show_objs h x) by (split; auto). rewrite map_length. reflexivity.
  - apply show_of. rewrite E, (show_objs h x F). reflexivity. Qed.
Lemma union_objs a b t : union false a b = Ok t -> map snd (tp_nodes t) = map snd (tp_nodes a) ++ map snd (tp_nodes b).
Proof. unfold union. cbn [bindr]. destruct (existsb _ _); [discriminate|]. intros H. apply ok_inj in H. subst t. cbn [tp_nodes]. apply map_app. Qed.
(** The topologies after a call of union. *)
Record un_ok (ren : bool) (i j : nat) (w : world) (x y : wtop) (tops : list wtop) (r : option exn) : Prop := {
  un_wf : Forall (wf_top (w_heap w)) tops;
  un_old : forall k z, nth_error (w_tops w) k = Some z -> exists z', nth_error tops k = Some z' /\ w_ids z' = w_ids z /\ (k <> i -> k <> j -> z' = z) /\ (ren = false -> show (w_heap w) z' = show (w_heap w) z);
  un_new : forall k z, nth_error tops k = Some z -> (k < List.length (w_tops w))%nat \/ (w_ids z = w_ids x ++ w_ids y);
  un_res : r = None -> exists t, union ren (show (w_heap w) x) (show (w_heap w) y) = Ok t /\
    option_map (show (w_heap w)) (nth_error tops (List.length (w_tops w))) = Some t /\ List.length tops = S (List.length (w_tops w));
  un_err : forall e, r = Some e -> union ren (show (w_heap w) x) (show (w_heap w) y) = Err e }.
Lemma union_ren ren a b : union ren a b = (a' <- ren_or ren a;; b' <- ren_or ren b;; union false a' b').
Proof. unfold union, ren_or. destruct ren; [|reflexivity]. destruct (relabel (tp_name a) a); [|reflexivity]. cbn [bindr]. destruct (relabel (tp_name b) b); reflexivity. Qed.
Lemma put_put_old h i j (w : world) x y x' y' : nth_error (w_tops w) i = Some x -> nth_error (w_tops w) j = Some y -> w_ids x' = w_ids x -> w_ids y' = w_ids y ->
  forall k z, nth_error (w_tops w) k = Some z -> exists z', nth_error (put_at j y' (put_at i x' (w_tops w))) k = Some z' /\ w_ids z' = w_ids z /\ (k <> i -> k <> j -> z' = z) /\
    (show h x' = show h x -> show h y' = show h y -> show h z' = show h z).
Proof. intros X Y EX EY k z Z. pose proof (nth_lt _ _ _ X) as LX. pose proof (nth_lt _ _ _ Y) as LY. destruct (Nat.eq_dec j k) as [->|N].
  - rewrite put_same by (rewrite put_length; exact LY). rewrite Z in Y. injection Y as ->. exists y'. repeat split; auto. tauto.
  - rewrite put_other by exact N. destruct (Nat.eq_dec i k) as [->|M].
    + rewrite put_same by exact LX. rewrite Z in X. injection X as ->. exists x'. repeat split; auto. tauto.
    + rewrite put_other by exact M. exists z. auto. Qed.
Lemma wf_put h i x l : wf_top h x -> Forall (wf_top h) l -> Forall (wf_top h) (put_at i x l).
Proof. rewrite !Forall_forall. intros X F y Y. apply put_in in Y as [->|Y]; auto. Qed.
Lemma put_self {A} (x : A) l : forall j, nth_error l j = Some x -> put_at j x l = l.
Proof. induction l as [|z l IH]; intros [|j] H; cbn [nth_error put_at] in *; try discriminate; [congruence|]. rewrite IH by exact H. reflexivity. Qed.
Lemma w_union_some ren i j w x y : Wf w -> nth_error (w_tops w) i = Some x -> nth_error (w_tops w) j = Some y -> disjoint (w_ids x) (w_ids y) = true ->
  exists tops r, w_union ren i j w = (mkWorld (w_heap w) tops, r) /\ un_ok ren i j w x y tops r.
Proof. intros F X Y D. unfold w_union. rewrite X, Y, D. set (h := w_heap w). pose proof (wf_nth _ _ _ F X) as FX. pose proof (wf_nth _ _ _ F Y) as FY. fold h in FX, FY.
  fold (ren_or ren (show h x)). fold (ren_or ren (show h y)).
  destruct (ren_or ren (show h x)) as [a|e] eqn:EA.
  2: { exists (w_tops w), (Some e). split; [destruct w; reflexivity|]. split.
    - exact F.
    - intros k z Z. exists z. auto.
    - intros k z Z. left. eapply nth_lt; exact Z.
    - discriminate.
    - intros e0 [= <-]. fold h. rewrite union_ren, EA. reflexivity. }
  destruct (ren_top ren h x a FX EA) as [WA SA].
  assert (ren = false -> show h (mkW a (w_ids x)) = show h x) as RA by (intros ->; cbn [ren_or] in EA; apply ok_inj in EA; congruence).
  destruct (ren_or ren (show h y)) as [b|e] eqn:EB.
  2: { eexists _, _. split; [reflexivity|]. split.
    - fold h. apply wf_put; [exact WA|exact F].
    - intros k z Z. destruct (put_put_old h i j w x y (mkW a (w_ids x)) y X Y eq_refl eq_refl k z Z) as (z' & Z1 & Z2 & Z3 & Z4).
      destruct (Nat.eq_dec i j) as [Eij|Nij].
      + subst j. rewrite X in Y. injection Y as ->. congruence.
      + rewrite put_self in Z1 by (rewrite put_other by exact Nij; exact Y). exists z'. fold h. split; [exact Z1|]. split; [exact Z2|]. split; [exact Z3|]. intros R. apply Z4; [apply RA; exact R|reflexivity].
    - intros k z Z. left. apply nth_lt in Z. rewrite put_length in Z. exact Z.
    - discriminate.
    - intros e0 [= <-]. fold h. rewrite union_ren, EA, EB. reflexivity. }
  destruct (ren_top ren h y b FY EB) as [WB SB].
  assert (ren = false -> show h (mkW b (w_ids y)) = show h y) as RB by (intros ->; cbn [ren_or] in EB; apply ok_inj in EB; congruence).
  assert (OLD : forall k z, nth_error (w_tops w) k = Some z -> exists z', nth_error (put_at j (mkW b (w_ids y)) (put_at i (mkW a (w_ids x)) (w_tops w))) k = Some z' /\
    w_ids z' = w_ids z /\ (k <> i -> k <> j -> z' = z) /\ (ren = false -> show h z' = show h z)).
  { intros k z Z. destruct (put_put_old h i j w x y (mkW a (w_ids x)) (mkW b (w_ids y)) X Y eq_refl eq_refl k z Z) as (z' & Z1 & Z2 & Z3 & Z4). exists z'. split; [exact Z1|]. split; [exact Z2|]. split; [exact Z3|]. intros R. apply Z4; auto. }
  assert (WF2 : Forall (wf_top h) (put_at j (mkW b (w_ids y)) (put_at i (mkW a (w_ids x)) (w_tops w)))) by (apply wf_put; [exact WB|]; apply wf_put; [exact WA|exact F]).
  destruct (union false a b) as [t|e] eqn:U; (eexists _, _; split; [reflexivity|]); split; fold h.
  - apply Forall_app. split; [exact WF2|]. constructor; [|constructor].
    assert (Q : map (deref h) (w_ids x ++ w_ids y) = map snd (tp_nodes t)).
    { rewrite (union_objs _ _ _ U), map_app. rewrite (proj1 (ren_objs _ _ _ EA)), (proj1 (ren_objs _ _ _ EB)), (show_objs h x FX), (show_objs h y FY). reflexivity. }
    split; [|split]; cbn [w_ids w_t].
    + apply NoDup_app; [apply FX|apply FY|]. apply disjoint_apart in D. intros k K1 K2. exact (D k K1 K2).
    + rewrite <- (map_length (deref h)), Q. apply map_length.
    + apply Forall_app. split; [apply FX|apply FY].
  - intros k z Z. destruct (OLD k z Z) as (z' & Z1 & Z2). exists z'. split; [|exact Z2]. rewrite nth_error_app1; [exact Z1|]. eapply nth_lt; exact Z1.
  - intros k z Z. destruct (Nat.lt_ge_cases k (List.length (w_tops w))) as [L|L]; [left; exact L|]. right. rewrite nth_error_app2 in Z by (rewrite !put_length; exact L). rewrite !put_length in Z.
    destruct (k - List.length (w_tops w))%nat as [|[|q]]; cbn in Z; try discriminate. injection Z as <-. reflexivity.
  - intros _. exists t. split; [rewrite union_ren, EA, EB; exact U|]. split; [|rewrite app_length, !put_length; cbn [List.length]; lia].
    rewrite nth_error_app2 by (rewrite !put_length; lia). rewrite !put_length, Nat.sub_diag. cbn [nth_error option_map]. f_equal. apply show_of.
    rewrite (union_objs _ _ _ U), map_app. rewrite (proj1 (ren_objs _ _ _ EA)), (proj1 (ren_objs _ _ _ EB)), (show_objs h x FX), (show_objs h y FY). reflexivity.
  - discriminate.
  - exact WF2.
  - exact OLD.
  - intros k z Z. left. apply nth_lt in Z. rewrite !put_length in Z. exact Z.
  - discriminate.
  - intros e0 [= <-]. rewrite union_ren, EA, EB. exact U. Qed.
Lemma w_union_cases ren i j w : Wf w -> (exists e, w_union ren i j w = (w, Some e)) \/ exists x y tops r, nth_error (w_tops w) i = Some x /\ nth_error (w_tops w) j = Some y /\
  w_union ren i j w = (mkWorld (w_heap w) tops, r) /\ un_ok ren i j w x y tops r.
Proof. intros F. destruct (nth_error (w_tops w) i) as [x|] eqn:X; [|left; unfold w_union; rewrite X; eauto]. destruct (nth_error (w_tops w) j) as [y|] eqn:Y; [|left; unfold w_union; rewrite X, Y; eauto].
  destruct (disjoint (w_ids x) (w_ids y)) eqn:D; [|left; unfold w_union; rewrite X, Y, D; eauto]. right. destruct (w_union_some ren i j w x y F X Y D) as (tops & r & E & K). exists x, y, tops, r. auto. Qed.

(** *** Histories *)
Lemma wf_new n auto w : Wf w -> Wf (w_new n auto w).
Proof. intros F. unfold Wf, w_new. cbn [w_heap w_tops]. apply Forall_app. split; [exact F|]. constructor; [|constructor]. split; [constructor|]. split; [reflexivity|constructor]. Qed.
Lemma wf_step w a : Wf w -> Wf (w_step w a).
Proof. intros F. destruct a; cbn [w_step]; [apply wf_new; exact F|apply wf_op; exact F|]. destruct (w_union_cases ren i j w F) as [[e ->]|(x & y & tops & r & _ & _ & -> & K)]; [exact F|]. apply K. Qed.
Theorem wf_run l : forall w, Wf w -> Wf (w_run w l).
Proof. unfold w_run. induction l as [|a l IH]; intros w F; [exact F|]. cbn [fold_left]. apply IH, wf_step, F. Qed.
Lemma look_some n w t : look n w = Some t -> exists x, nth_error (w_tops w) n = Some x /\ show (w_heap w) x = t.
Proof. unfold look. destruct (nth_error _ _) as [x|]; [|discriminate]. intros H. injection H as <-. eauto. Qed.
Lemma step_alone n w a t : Wf w -> Alone n w -> look n w = Some t -> not_joined n a ->
  Alone n (w_step w a) /\ look n (w_step w a) = Some (topo_run t (own n [a])).
Proof. intros F A L J. destruct a as [name auto|i o|ren i j]; cbn [w_step own flat_map app].
  - destruct (look_some _ _ _ L) as (x & X & S). pose proof (nth_lt _ _ _ X) as LX. unfold w_new. split.
    + intros x0 k y X0 Y N. cbn [w_tops] in X0, Y. rewrite nth_error_app1 in X0 by exact LX. destruct (Nat.lt_ge_cases k (List.length (w_tops w))) as [Lk|Lk].
      * rewrite nth_error_app1 in Y by exact Lk. exact (A x0 k y X0 Y N).
      * rewrite nth_error_app2 in Y by exact Lk. destruct (k - List.length (w_tops w))%nat as [|[|q]]; cbn in Y; try discriminate. injection Y as <-. intros q _ Q. exact Q.
    + unfold look. cbn [w_heap w_tops]. rewrite nth_error_app1 by exact LX. exact L.
  - split; [apply alone_op; assumption|]. destruct (Nat.eqb_spec n i) as [->|N]; cbn [app].
    + rewrite look_op by exact F. rewrite L. reflexivity.
    + destruct (look_some _ _ _ L) as (x & X & S). cbn [topo_run fold_left]. destruct (nth_error (w_tops w) i) as [z|] eqn:E; [|unfold w_op; rewrite E; exact L].
      rewrite (look_other i n o w z x F E X); [exact L| |auto]. intros q Q1 Q2. exact (A x i z X E ltac:(auto) q Q2 Q1).
  - cbn [not_joined] in J. destruct J as [J1 J2]. cbn [topo_run fold_left]. destruct (w_union_cases ren i j w F) as [[e ->]|(x & y & tops & r & X & Y & -> & K)]; [auto|]. cbn [fst].
    destruct (look_some _ _ _ L) as (z & Z & S). destruct (un_old _ _ _ _ _ _ _ _ K n z Z) as (z' & Z1 & Z2 & Z3 & _). specialize (Z3 J1 J2). subst z'. split.
    + intros x0 k y0 X0 Y0 N. cbn [w_tops] in X0, Y0. rewrite Z1 in X0. injection X0 as <-. destruct (un_new _ _ _ _ _ _ _ _ K k y0 Y0) as [Lk|E].
      * destruct (nth_error (w_tops w) k) as [y1|] eqn:Y1; [|apply nth_error_Some in Lk; congruence]. destruct (un_old _ _ _ _ _ _ _ _ K k y1 Y1) as (y2 & Y2 & Y3 & _). rewrite Y0 in Y2. injection Y2 as <-.
        rewrite Y3. exact (A z k y1 Z Y1 N).
      * rewrite E. intros q Q1 Q2. apply in_app_or in Q2. destruct Q2 as [Q2|Q2]; [exact (A z i x Z X ltac:(auto) q Q1 Q2)|exact (A z j y Z Y ltac:(auto) q Q1 Q2)].
    + unfold look. cbn [w_heap w_tops]. rewrite Z1. cbn [option_map]. rewrite S. reflexivity. Qed.
Lemma own_cons n a l : own n (a :: l) = own n [a] ++ own n l.
Proof. unfold own. cbn [flat_map]. rewrite app_nil_r. reflexivity. Qed.
Theorem run_alone n l : forall w t, Wf w -> Alone n w -> look n w = Some t -> Forall (not_joined n) l -> look n (w_run w l) = Some (topo_run t (own n l)).
Proof. induction l as [|a l IH]; intros w t F A L J; [exact L|]. inversion J as [|? ? J1 J2]; subst. destruct (step_alone n w a t F A L J1) as [A' L'].
  change (w_run w (a :: l)) with (w_run (w_step w a) l). rewrite (IH _ _ (wf_step w a F) A' L' J2). rewrite (own_cons n a l). unfold topo_run. rewrite fold_left_app. reflexivity. Qed.
Theorem alone_new pre name auto post : let w := w_run world0 pre in let n := List.length (w_tops w) in Forall (not_joined n) post ->
  look n (w_run world0 (pre ++ WNew name auto :: post)) = Some (topo_run (topo_new name auto) (own n post)).
Proof. intros w n J. unfold w_run. rewrite fold_left_app. change (look n (w_run (w_step w (WNew name auto)) post) = Some (topo_run (topo_new name auto) (own n post))).
  assert (F : Wf w) by (apply wf_run; constructor). apply run_alone; [apply wf_step; exact F| | |exact J].
  - intros x j y X Y N. cbn [w_step w_new w_tops] in X, Y. rewrite nth_error_app2 in X by (unfold n; lia). rewrite Nat.sub_diag in X. cbn in X. injection X as <-. intros q [].
  - unfold look. cbn [w_step w_new w_heap w_tops]. rewrite nth_error_app2 by (unfold n; lia). unfold n. rewrite Nat.sub_diag. reflexivity. Qed.
