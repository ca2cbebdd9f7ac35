(** Renaming, saving and loading, unique Ethernet addresses, automatic IP addresses. *)
From Verif Require Import BaseLemmas CodecLemmas EthAddrModel EthAddrSpec EthAddrProofs TopoModel TopoNames TopoProofs TopoSpec TopoInv.
#[local] Open Scope string_scope.
#[local] Open Scope Z_scope.
#[local] Open Scope list_scope.

Lemma Forall2_in_r {A B} (P : A -> B -> Prop) l l' y : Forall2 P l l' -> In y l' -> exists x, In x l /\ P x y.
Proof. induction 1 as [|a b l l' H F IH]; intros H2; [destruct H2|]. destruct H2 as [<-|H2]; [exists a; split; [left|]; auto|]. destruct (IH H2) as (x & X1 & X2). exists x. split; [right|]; auto. Qed.
Lemma Forall2_in_l {A B} (P : A -> B -> Prop) l l' x : Forall2 P l l' -> In x l -> exists y, In y l' /\ P x y.
Proof. induction 1 as [|a b l l' H F IH]; intros H2; [destruct H2|]. destruct H2 as [<-|H2]; [exists b; split; [left|]; auto|]. destruct (IH H2) as (y & X1 & X2). exists y. split; [right|]; auto. Qed.

(** ** Renaming *)
Lemma dget_rename p k (ns : dict tnode) : dget (rename p k) (map (fun x => (rename p (fst x), snd x)) ns) = dget k ns.
Proof. induction ns as [|[m n] r IH]; [reflexivity|]. cbn [map dget fst snd]. destruct (str_spec k m).
  - subst. rewrite str_eqb_refl. reflexivity.
  - rewrite str_eqb_neq; [exact IH|]. intros H. apply rename_inj in H. congruence. Qed.
Lemma dkeys_rename p (ns : dict tnode) : dkeys (map (fun x => (rename p (fst x), snd x)) ns) = map (rename p) (dkeys ns).
Proof. unfold dkeys. rewrite !map_map. reflexivity. Qed.
Lemma relabel_attrs_get p u v d d' a b : u <> v -> v <> rename p u -> u <> rename p v -> dget u d = Some a -> dget v d = Some b ->
  relabel_attrs p u v d = Ok d' ->
  dget (rename p u) d' = Some a /\ dget (rename p v) d' = Some b /\
  (forall k, k <> u -> k <> v -> k <> rename p u -> k <> rename p v -> dget k d' = dget k d).
Proof. intros N1 N2 N3 A B. unfold relabel_attrs. rewrite A.
  rewrite dget_ddel_other, dget_dset_other, B by auto. intros H. apply ok_inj in H. subst d'.
  assert (R : rename p u <> rename p v) by (intros H; apply rename_inj in H; congruence).
  assert (R1 : rename p u <> u) by apply rename_neq. assert (R2 : rename p v <> v) by apply rename_neq.
  split; [|split].
  - rewrite dget_ddel_other, dget_dset_other, dget_ddel_other, dget_dset_same by auto. reflexivity.
  - rewrite dget_ddel_other, dget_dset_same by auto. reflexivity.
  - intros k K1 K2 K3 K4. rewrite dget_ddel_other, dget_dset_other, dget_ddel_other, dget_dset_other by auto. reflexivity. Qed.
Lemma relabel_attrs_total p u v d a b : u <> v -> v <> rename p u -> dget u d = Some a -> dget v d = Some b -> exists d', relabel_attrs p u v d = Ok d'.
Proof. intros N1 N2 A B. unfold relabel_attrs. rewrite A. rewrite dget_ddel_other, dget_dset_other, B by auto. eauto. Qed.
Lemma has_link_in u v t : has_link u v t = true <-> exists e, In e (tp_edges t) /\ joins u v e = true.
Proof. apply existsb_exists. Qed.
Lemma no_clash_edge p t x : no_clash p t -> In x (edge_list t) ->
  fst (fst x) <> snd (fst x) /\ snd (fst x) <> rename p (fst (fst x)) /\ fst (fst x) <> rename p (snd (fst x)).
Proof. intros C H. apply edge_list_in in H as (e & H1 & H2 & _). rewrite same_sym in H2. unfold same in H2.
  assert (L1 : has_link (fst (fst x)) (snd (fst x)) t = true) by (apply has_link_in; eauto).
  assert (L2 : has_link (snd (fst x)) (fst (fst x)) t = true) by (apply has_link_in; exists e; rewrite joins_sym; auto).
  apply C in L1, L2. tauto. Qed.
Lemma same_touches n e x : same e x = true -> touches n x -> touches n e.
Proof. destruct e as [[a b] d], x as [[a2 b2] d2]. unfold same, touches. cbn [fst snd]. rewrite joins_iff. intuition congruence. Qed.
Lemma edge_list_good b t x n : Inv b t -> In x (edge_list t) -> touches n x -> good_end b (tp_nodes t) (snd x) n.
Proof. intros I H T. apply edge_list_in in H as (e & H1 & H2 & ->). apply (inv_ends b t I); [exact H1|]. eapply same_touches; eauto. Qed.
Lemma relabel_edges b p t : Inv b t -> no_clash p t -> exists es, mapr (relabel_edge p) (edge_list t) = Ok es.
Proof. intros I C. assert (H : forall l, (forall x, In x l -> In x (edge_list t)) -> exists es, mapr (relabel_edge p) l = Ok es).
  { induction l as [|x l IH]; intros S; [exists []; reflexivity|]. destruct IH as [es E]; [intros y Hy; apply S; right; exact Hy|].
    assert (Hx : In x (edge_list t)) by (apply S; left; reflexivity).
    destruct (no_clash_edge p t x C Hx) as (N1 & N2 & N3).
    destruct (edge_list_good b t x (fst (fst x)) I Hx (or_introl eq_refl)) as (n1 & j1 & _ & G1 & _).
    destruct (edge_list_good b t x (snd (fst x)) I Hx (or_intror eq_refl)) as (n2 & j2 & _ & G2 & _).
    destruct x as [[u v] d]. cbn [fst snd] in *. destruct (relabel_attrs_total p u v d _ _ N1 N2 G1 G2) as [d' D].
    exists ((rename p u, rename p v, d') :: es). cbn [mapr relabel_edge]. rewrite D. cbn [bindr]. rewrite E. reflexivity. }
  apply H. auto. Qed.
Lemma in_relabelled b p t es y : Inv b t -> no_clash p t -> mapr (relabel_edge p) (edge_list t) = Ok es -> In y es ->
  exists x, In x (edge_list t) /\ fst (fst y) = rename p (fst (fst x)) /\ snd (fst y) = rename p (snd (fst x)) /\
    (forall n, touches n x -> dget (rename p n) (snd y) = dget n (snd x)) /\
    (forall k, k <> fst (fst x) -> k <> snd (fst x) -> k <> rename p (fst (fst x)) -> k <> rename p (snd (fst x)) -> dget k (snd y) = dget k (snd x)).
Proof. intros I C M H. apply mapr_ok in M. destruct (Forall2_in_r _ _ _ _ M H) as (x & X1 & X2). exists x. split; [exact X1|].
  destruct (no_clash_edge p t x C X1) as (N1 & N2 & N3).
  destruct (edge_list_good b t x (fst (fst x)) I X1 (or_introl eq_refl)) as (n1 & j1 & _ & G1 & _).
  destruct (edge_list_good b t x (snd (fst x)) I X1 (or_intror eq_refl)) as (n2 & j2 & _ & G2 & _).
  destruct x as [[u v] d]. cbn [fst snd] in *. cbn [relabel_edge] in X2. destruct (relabel_attrs p u v d) as [d'|] eqn:D; [|discriminate]. cbn [bindr] in X2.
  apply ok_inj in X2. subst y. cbn [fst snd]. destruct (relabel_attrs_get p u v d d' _ _ N1 N2 N3 G1 G2 D) as (R1 & R2 & R3).
  split; [reflexivity|]. split; [reflexivity|]. split; [|exact R3]. intros n [->| ->]; cbn [fst snd]; congruence. Qed.
Lemma sep_relabelled p l es : sep l -> mapr (relabel_edge p) l = Ok es -> sep es.
Proof. intros S. revert es. induction S as [|x l F S IH]; intros es M; cbn [mapr] in M.
  - apply ok_inj in M. subst. constructor.
  - destruct (relabel_edge p x) as [y|] eqn:X; [|discriminate]. cbn [bindr] in M. destruct (mapr _ l) as [es'|] eqn:E; [|discriminate].
    cbn [bindr] in M. apply ok_inj in M. subst es. constructor; [|apply IH; reflexivity].
    apply mapr_ok in E. rewrite Forall_forall in *. intros z Hz.
    assert (Z : exists w, In w l /\ relabel_edge p w = Ok z).
    { clear -E Hz. induction E as [|a c l l' R M IH]; [destruct Hz|]. destruct Hz as [<-|Hz]; [exists a; split; [left|]; auto|]. destruct (IH Hz) as (w & W1 & W2). exists w. split; [right|]; auto. }
    destruct Z as (w & W1 & W2). specialize (F w W1).
    destruct x as [[u v] d], w as [[u2 v2] d2]. cbn [relabel_edge] in X, W2.
    destruct (relabel_attrs p u v d); [|discriminate]. destruct (relabel_attrs p u2 v2 d2); [|discriminate]. cbn [bindr] in X, W2. apply ok_inj in X, W2. subst y z.
    unfold same in *. cbn [fst snd] in *. destruct (joins (rename p u) (rename p v) (rename p u2, rename p v2, a0)) eqn:J; [|reflexivity].
    rewrite <- F. symmetry. apply joins_iff in J. apply joins_iff. destruct J as [[A B]|[A B]]; apply rename_inj in A, B; auto. Qed.
Lemma inv_relabel b p t : Inv b t -> no_clash p t -> exists t', relabel p t = Ok t' /\ Inv b t'.
Proof. intros I C. destruct (relabel_edges b p t I C) as [es E]. unfold relabel. rewrite E. cbn [bindr]. eexists. split; [reflexivity|].
  assert (T : forall y x n, In x (edge_list t) -> fst (fst y) = rename p (fst (fst x)) -> snd (fst y) = rename p (snd (fst x)) -> touches n y -> exists m, n = rename p m /\ touches m x).
  { intros y x n _ A B [->| ->]; [exists (fst (fst x))|exists (snd (fst x))]; split; auto; [left|right]; reflexivity. }
  split; unfold nodes; cbn [with_edges with_nodes tp_nodes tp_edges].
  - rewrite dkeys_rename. apply FinFun.Injective_map_NoDup; [|apply (inv_names b t I)]. intros x y. apply rename_inj.
  - intros n Hn. rewrite dkeys_rename in Hn. apply in_map_iff in Hn as (m & <- & _). apply rename_not_reserved.
  - intros y n Hy Hn. destruct (in_relabelled b p t es y I C E Hy) as (x & X1 & X2 & X3 & X4 & _). destruct (T y x n X1 X2 X3 Hn) as (m & -> & Hm).
    destruct (edge_list_good b t x m I X1 Hm) as (nd & j & G1 & G2 & G3). exists nd, j. rewrite dget_rename, X4 by exact Hm. auto.
  - apply (sep_relabelled p (edge_list t)); [|exact E]. apply edge_list_sep; apply I.
  - intros Hb y1 y2 n H1 H2 T1 T2 Q. destruct (in_relabelled b p t es y1 I C E H1) as (x1 & X1 & A1 & B1 & D1 & _).
    destruct (in_relabelled b p t es y2 I C E H2) as (x2 & X2 & A2 & B2 & D2 & _).
    destruct (T y1 x1 n X1 A1 B1 T1) as (m & -> & M1). destruct (T y2 x2 _ X2 A2 B2 T2) as (m2 & M & M2). apply rename_inj in M. subst m2.
    rewrite D1, D2 in Q by assumption.
    destruct (edge_list_in t x1 X1) as (e1 & F1 & S1 & V1). destruct (edge_list_in t x2 X2) as (e2 & F2 & S2 & V2). rewrite V1, V2 in Q.
    assert (S : same e1 e2 = true) by (apply (inv_use b t I Hb e1 e2 m); auto; eapply same_touches; eauto).
    assert (S' : same x1 x2 = true).
    { unfold same. apply (same_joins2 _ _ e2); [|exact S2]. apply (same_joins2 _ _ e1); [|exact S]. rewrite same_sym in S1. exact S1. }
    clear -S' A1 B1 A2 B2. destruct x1 as [[] ?], x2 as [[] ?], y1 as [[] ?], y2 as [[] ?]. unfold same in *. cbn [fst snd] in *. subst.
    apply joins_iff in S'. apply joins_iff. intuition congruence. Qed.
Lemma inv_no_edges b t f : Inv b t -> edge_list t = [] -> (forall n, In n (nodes t) -> ~ reserved (f n)) -> (forall x y, f x = f y -> x = y) ->
  Inv b (with_nodes (map (fun x => (f (fst x), snd x)) (tp_nodes t)) t).
Proof. intros I E R J. assert (E2 : tp_edges t = []).
  { destruct (tp_edges t) as [|e es] eqn:Q; [reflexivity|]. exfalso. assert (He : In e (tp_edges t)) by (rewrite Q; left; reflexivity).
    destruct (inv_ends b t I e (fst (fst e)) He (or_introl eq_refl)) as (nd & j & G & _). apply dget_nodes in G.
    destruct (edge_list_all t e He G) as (x & X & _). rewrite E in X. exact X. }
  assert (K : dkeys (map (fun x => (f (fst x), snd x)) (tp_nodes t)) = map f (nodes t)) by (unfold nodes, dkeys; rewrite !map_map; reflexivity).
  split; unfold nodes; cbn [with_nodes tp_nodes tp_edges]; rewrite ?E2.
  - rewrite K. apply FinFun.Injective_map_NoDup; [exact J|apply I].
  - rewrite K. intros n Hn. apply in_map_iff in Hn as (m & <- & Hm). auto.
  - intros e n [].
  - constructor.
  - intros _ e1 e2 n []. Qed.
Lemma inv_prefix b t p : Inv b t -> (forall s, p = Some s -> no_clash s t) -> Inv b (fst (label_prefix p t)).
Proof. intros I C. unfold label_prefix. destruct p as [p|].
  - destruct (inv_relabel b p t I (C p eq_refl)) as (t' & -> & I'). exact I'.
  - destruct (edge_list t) eqn:E; [|exact I]. cbn [fst]. apply inv_no_edges; [exact I|exact E| |apply rename_inj]. intros n _. apply rename_not_reserved. Qed.

(** ** Saving and loading *)
Lemma mapr_comp {A B C} (f : B -> res C) (g : A -> B) l : mapr f (map g l) = mapr (fun x => f (g x)) l.
Proof. induction l as [|x l IH]; [reflexivity|]. cbn [map mapr]. rewrite IH. reflexivity. Qed.
Definition rel_dict {V W} (R : V -> W -> Prop) (d : dict V) (d' : dict W) : Prop := Forall2 (fun x y => fst y = fst x /\ R (snd x) (snd y)) d d'.
Lemma rel_keys {V W} (R : V -> W -> Prop) d d' : rel_dict R d d' -> dkeys d' = dkeys d.
Proof. unfold rel_dict, dkeys. induction 1 as [|x y l l' [H _] F IH]; [reflexivity|]. cbn [map]. congruence. Qed.
Lemma rel_get {V W} (R : V -> W -> Prop) d d' k v : rel_dict R d d' -> dget k d = Some v -> exists w, dget k d' = Some w /\ R v w.
Proof. unfold rel_dict. induction 1 as [|[kx x] [ky y] l l' [H1 H2] F IH]; cbn [dget fst snd] in *; [discriminate|]. subst ky.
  destruct (str_eqb k kx); [|exact IH]. intros E. injection E as ->. eauto. Qed.
Lemma rel_get_back {V W} (R : V -> W -> Prop) d d' k w : rel_dict R d d' -> dget k d' = Some w -> exists v, dget k d = Some v /\ R v w.
Proof. unfold rel_dict. induction 1 as [|[kx x] [ky y] l l' [H1 H2] F IH]; cbn [dget fst snd] in *; [discriminate|]. subst ky.
  destruct (str_eqb k kx); [|exact IH]. intros E. injection E as ->. eauto. Qed.
(** What is kept of an interface and of a node. *)
Definition if_kept (x y : iface) : Prop := if_mac y = if_mac x /\ forall a, In a (if_ips y) <-> In a (if_ips x) /\ some_ip a.
Definition node_kept (n m : tnode) : Prop := tn_kind m = tn_kind n /\ rel_dict if_kept (tn_ifs n) (tn_ifs m).
Lemma ipif_eqb_eq a b : ipif_eqb a b = true <-> a = b.
Proof. destruct a as [x p], b as [y q]. unfold ipif_eqb. cbn [fst snd]. rewrite andb_true_iff, bytes_eqb_eq, Z.eqb_eq. intuition congruence. Qed.
Lemma in_if_assign a i x : In x (if_ips (if_assign a i)) <-> x = a \/ In x (if_ips i).
Proof. unfold if_assign. destruct (existsb (ipif_eqb a) (if_ips i)) eqn:E.
  - apply existsb_exists in E as (y & H1 & H2). apply ipif_eqb_eq in H2. subst y. intuition congruence.
  - cbn [if_ips]. rewrite in_app_iff. cbn [In]. intuition congruence. Qed.
Lemma fold_assign l : forall i, if_mac (fold_left (fun i a => if_assign a i) l i) = if_mac i /\
  forall x, In x (if_ips (fold_left (fun i a => if_assign a i) l i)) <-> In x l \/ In x (if_ips i).
Proof. induction l as [|a l IH]; intros i; cbn [fold_left]; [split; [reflexivity|cbn; tauto]|]. destruct (IH (if_assign a i)) as [H1 H2]. split.
  - rewrite H1. unfold if_assign. destruct (existsb _ _); reflexivity.
  - intros x. rewrite H2, in_if_assign. cbn [In]. intuition congruence. Qed.
Lemma mapr_id {A} (P : A -> bool) e (l l' : list A) : mapr (fun a => if P a then Ok a else Err e) l = Ok l' -> l' = l /\ forallb P l = true.
Proof. revert l'. induction l as [|a l IH]; intros l' H; cbn [mapr] in H; [apply ok_inj in H; subst; auto|].
  destruct (P a) eqn:E; [|discriminate]. cbn [bindr] in H. destruct (mapr _ l) as [r|] eqn:M; [|discriminate]. cbn [bindr] in H. apply ok_inj in H.
  destruct (IH r eq_refl) as [-> F]. split; [auto|]. cbn [forallb]. rewrite E. exact F. Qed.
Lemma mapr_id_ok {A} (P : A -> bool) e (l : list A) : forallb P l = true -> mapr (fun a => if P a then Ok a else Err e) l = Ok l.
Proof. induction l as [|a l IH]; cbn [mapr forallb]; intros H; [reflexivity|]. apply andb_true_iff in H as [-> H]. cbn [bindr]. rewrite IH by exact H. reflexivity. Qed.
Lemma some_ip_iff a : negb (zero_ip a) = true <-> some_ip a.
Proof.
  unfold zero_ip, some_ip. rewrite negb_true_iff. induction (fst a) as [|b l IH]; cbn [forallb]; [split; [discriminate|intros (b & [] & _)]|].
  rewrite andb_false_iff, IH. split.
  - intros [H|(c & H1 & H2)]; [exists b; split; [left; reflexivity|lia]|exists c; split; [right; exact H1|exact H2]].
  - intros (c & [<-|H1] & H2); [left; lia|right; eauto].
Qed.
Lemma load_if_kept name x y : load_if name (save_if x) = Ok y -> if_kept x y.
Proof. unfold load_if, save_if. cbn [si_ips si_mac]. set (l := filter _ _). intros H. destruct (mapr _ l) as [l'|] eqn:M; [|discriminate]. cbn [bindr] in H.
  apply mapr_id in M as [-> _]. apply ok_inj in H. subst y. destruct (fold_assign l (mkIf name (if_mac x) [] 0)) as [H1 H2]. split; [exact H1|].
  intros a. rewrite H2. unfold l. rewrite filter_In, some_ip_iff. cbn [if_ips In]. tauto. Qed.
Lemma load_if_total name x : v4_only x -> exists y, load_if name (save_if x) = Ok y.
Proof. intros V. unfold load_if, save_if. cbn [si_ips si_mac]. set (l := filter _ _).
  pose proof (mapr_id_ok (fun a : ipif => Nat.eqb (List.length (fst a)) 4) EValue l) as M. rewrite M; [cbn [bindr]; eauto|].
  apply forallb_forall. intros a Ha. apply Nat.eqb_eq. apply filter_In in Ha as [H1 H2]. apply some_ip_iff in H2. auto. Qed.
Definition save_node (x : str * tnode) : str * kind * dict saved_if := (fst x, tn_kind (snd x), map (fun y => (fst y, save_if (snd y))) (tn_ifs (snd x))).
Lemma load_node_kept x y : load_node (save_node x) = Ok y -> fst y = fst x /\ node_kept (snd x) (snd y).
Proof. unfold load_node, save_node. rewrite mapr_comp. cbn [fst snd]. set (m := mapr _ _). destruct m as [l|] eqn:M; [|discriminate]. cbn [bindr]. intros H.
  apply ok_inj in H. subst y. cbn [fst snd]. split; [reflexivity|]. split; [reflexivity|]. cbn [tn_ifs]. unfold m in M. apply mapr_ok in M. unfold rel_dict.
  eapply Forall2_impl; [|exact M]. intros a b H. cbn in H. destruct (load_if (fst a) (save_if (snd a))) as [i|] eqn:E; [|discriminate]. cbn [bindr] in H.
  apply ok_inj in H. subst b. cbn [fst snd]. split; [reflexivity|]. eapply load_if_kept. exact E. Qed.
Lemma mapr_total {A B} (f : A -> res B) l : (forall x, In x l -> exists y, f x = Ok y) -> exists l', mapr f l = Ok l'.
Proof. induction l as [|x l IH]; intros H; [exists []; reflexivity|]. destruct (H x (or_introl eq_refl)) as [y E].
  destruct IH as [l' E2]; [intros z Hz; apply H; right; exact Hz|]. exists (y :: l'). cbn [mapr]. rewrite E. cbn [bindr]. rewrite E2. reflexivity. Qed.
Lemma load_node_total x : (forall i, In i (map snd (tn_ifs (snd x))) -> v4_only i) -> exists y, load_node (save_node x) = Ok y.
Proof. intros V. unfold load_node, save_node. rewrite mapr_comp. cbn [fst snd]. destruct (mapr_total (fun y : str * iface => i <- load_if (fst y) (save_if (snd y));; Ok (fst y, i)) (tn_ifs (snd x))) as [l E].
  - intros y Hy. destruct (load_if_total (fst y) (snd y)) as [i ->]; [|cbn [bindr]; eauto]. apply V. apply in_map. exact Hy.
  - rewrite E. cbn [bindr]. eauto. Qed.
Definition edge_kept (x y : edge) : Prop := fst y = fst x /\ forall k, k <> "source" -> k <> "target" -> dget k (snd y) = dget k (snd x).
Lemma load_edge_kept x : exists y, load_edge (save_edge x) = Ok y /\ edge_kept x y.
Proof. destruct x as [[u v] d]. unfold load_edge, save_edge. rewrite dget_dset_other, !dget_dset_same by discriminate. eexists. split; [reflexivity|].
  split; [reflexivity|]. intros k K1 K2. cbn [snd]. rewrite dget_ddel_other, dget_ddel_other, dget_dset_other, dget_dset_other by auto. reflexivity. Qed.
Lemma unserialize_shape t t' : unserialize (serialize t) = Ok t' ->
  rel_dict node_kept (tp_nodes t) (tp_nodes t') /\ Forall2 edge_kept (edge_list t) (tp_edges t').
Proof. unfold unserialize, serialize. cbn [sv_nodes sv_links]. change (fun x : str * tnode => _) with save_node. rewrite !mapr_comp.
  destruct (mapr _ (tp_nodes t)) as [ns|] eqn:M1; [|discriminate]. cbn [bindr]. destruct (mapr _ (edge_list t)) as [es|] eqn:M2; [|discriminate]. cbn [bindr].
  intros H. apply ok_inj in H. subst t'. cbn [tp_nodes tp_edges]. apply mapr_ok in M1, M2. split.
  - eapply Forall2_impl; [|exact M1]. intros a b. apply load_node_kept.
  - eapply Forall2_impl; [|exact M2]. intros a b H. cbn in H. destruct (load_edge_kept a) as (y & E & K). congruence. Qed.
Lemma unserialize_total t : NoDup (nodes t) -> topo_v4 t -> exists t', unserialize (serialize t) = Ok t'.
Proof. intros N V. unfold unserialize, serialize. cbn [sv_nodes sv_links]. change (fun x : str * tnode => _) with save_node. rewrite !mapr_comp.
  destruct (mapr_total (fun x => load_node (save_node x)) (tp_nodes t)) as [ns E].
  { intros [k n] Hx. apply load_node_total. cbn [snd]. intros i Hi. apply (V k n); [|exact Hi]. apply In_dget; auto. }
  rewrite E. cbn [bindr]. destruct (mapr_total (fun x => load_edge (save_edge x)) (edge_list t)) as [es E2]; [|rewrite E2; cbn [bindr]; eauto].
  intros x _. destruct (load_edge_kept x) as (y & H & _). eauto. Qed.
Lemma sep_kept l l' : Forall2 edge_kept l l' -> sep l -> sep l'.
Proof. intros F. induction F as [|a b l l' [H _] F IH]; intros S; [constructor|]. inversion S as [|? ? F0 S0]; subst. constructor; [|apply IH; exact S0].
  apply Forall_forall. intros y Hy. destruct (Forall2_in_r _ _ _ _ F Hy) as (x & X1 & [X2 _]). rewrite (same_fst a x b y) by auto.
  rewrite Forall_forall in F0. apply F0. exact X1. Qed.
Lemma inv_reload t t' : Inv false t -> unserialize (serialize t) = Ok t' -> Inv false t'.
Proof. intros I U. apply unserialize_shape in U as [N E]. assert (K : nodes t' = nodes t) by apply (rel_keys _ _ _ N). split.
  - rewrite K. apply I.
  - rewrite K. apply I.
  - intros y n Hy T. destruct (Forall2_in_r _ _ _ _ E Hy) as (x & X & [F Q]). symmetry in F. pose proof (touches_fst _ _ _ F T) as T2.
    destruct (edge_list_good false t x n I X T2) as (nd & j & G1 & G2 & G3 & _). destruct (rel_get _ _ _ _ _ N G1) as (nd' & G1' & [_ RI]).
    exists nd', j. split; [exact G1'|]. assert (NR : ~ reserved n) by (apply (inv_res false t I); apply dget_nodes in G1; exact G1).
    rewrite Q; [|intros ->; apply NR; unfold reserved; auto..]. split; [exact G2|]. split; [|discriminate].
    apply din_iff. rewrite (rel_keys _ _ _ RI). apply din_iff. exact G3.
  - apply (sep_kept _ _ E). apply edge_list_sep; apply I.
  - discriminate. Qed.

(** ** Histories *)
Lemma inv_step b t o : Inv b t -> fair b t o -> Inv b (topo_step t o).
Proof. intros I F. destruct o; cbn [topo_step fair] in *.
  - apply inv_add; [exact I|]. intros s ->. exact F.
  - apply inv_add_link. exact I.
  - apply inv_set_link. exact I.
  - apply inv_remove_node. exact I.
  - apply inv_remove_link. exact I.
  - apply inv_set_addresses. exact I.
  - apply inv_assign. exact I.
  - apply inv_prefix; [exact I|]. intros s ->. exact F.
  - subst b. destruct (unserialize (serialize t)) eqn:U; [|exact I]. eapply inv_reload; eauto. Qed.
Theorem inv_run b os : forall t, Inv b t -> fair_run b t os -> Inv b (topo_run t os).
Proof. unfold topo_run. induction os as [|o os IH]; intros t I F; [exact I|]. destruct F as [F1 F2]. cbn [fold_left]. apply IH; [|exact F2]. apply inv_step; assumption. Qed.

(** ** Reading links *)
Lemma get_link_in u v t d : get_link u v t = Ok d -> exists e, In e (tp_edges t) /\ joins u v e = true /\ snd e = d.
Proof. unfold get_link. destruct (find _ _) as [e|] eqn:E; [|discriminate]. intros H. apply ok_inj in H. apply find_some in E. exists e. tauto. Qed.
Lemma links_iff b t u v : Inv b t -> has_link u v t = true <-> In (u, v) (links t) \/ In (v, u) (links t).
Proof. intros I. rewrite has_link_in. split.
  - intros (e & H & J). destruct (edge_list_all t e H) as (x & X & S & _).
    + destruct (inv_ends b t I e (fst (fst e)) H (or_introl eq_refl)) as (nd & j & G & _). apply dget_nodes in G. exact G.
    + pose proof (same_joins2 u v e x J S) as J2. unfold links. destruct x as [[a c] d]. apply joins_iff in J2.
      destruct J2 as [[-> ->]|[-> ->]]; [left|right]; apply (in_map fst) in X; exact X.
  - unfold links. intros H. assert (Q : forall p q, In (p, q) (map fst (edge_list t)) -> exists e, In e (tp_edges t) /\ joins p q e = true).
    { intros p q Hp. apply in_map_iff in Hp as (x & Ex & X). apply edge_list_in in X as (e & E1 & E2 & _). exists e. split; [exact E1|].
      rewrite same_sym in E2. unfold same in E2. rewrite Ex in E2. exact E2. }
    destruct H as [H|H]; apply Q in H as (e & E1 & E2); exists e; split; auto. rewrite joins_sym. exact E2. Qed.
Lemma link_end b t u v d n : Inv b t -> get_link u v t = Ok d -> n = u \/ n = v -> good_end b (tp_nodes t) d n.
Proof. intros I G N. apply get_link_in in G as (e & H & J & <-). apply (inv_ends b t I); [exact H|]. destruct (touch_joins _ _ _ J). destruct N as [->| ->]; assumption. Qed.
Lemma link_distinct t n a c d1 d2 : Inv true t -> get_link n a t = Ok d1 -> get_link n c t = Ok d2 -> dget n d1 = dget n d2 -> a = c.
Proof. intros I G1 G2 E. apply get_link_in in G1 as (e1 & H1 & J1 & <-). apply get_link_in in G2 as (e2 & H2 & J2 & <-).
  destruct (touch_joins _ _ _ J1) as [T1 _]. destruct (touch_joins _ _ _ J2) as [T2 _].
  pose proof (inv_use true t I eq_refl e1 e2 n H1 H2 T1 T2 E) as S. pose proof (same_joins2 _ _ _ _ J1 S) as J3.
  destruct e2 as [[p q] d]. apply joins_iff in J2, J3. intuition congruence. Qed.
Lemma good_end_addresses b t d n : good_end b (tp_nodes t) d n -> exists i m ips, dget n d = Some (AName i) /\ get_addresses n i t = Ok (m, ips).
Proof. intros (nd & j & G1 & G2 & G3 & _). unfold din in G3. destruct (dget (eth_name j) (tn_ifs nd)) as [x|] eqn:E; [|discriminate].
  exists (eth_name j), (if_mac x), (if_ips x). split; [exact G2|]. unfold get_addresses. rewrite G1, E. reflexivity. Qed.
Lemma reload_same t t' : Inv false t -> unserialize (serialize t) = Ok t' ->
  nodes t' = nodes t /\ (forall k, nodes_of k t' = nodes_of k t) /\
  (forall n i m ips, get_addresses n i t = Ok (m, ips) -> exists ips', get_addresses n i t' = Ok (m, ips') /\ forall a, In a ips' <-> In a ips /\ some_ip a) /\
  (forall u v, has_link u v t' = has_link u v t) /\
  (forall u v d, get_link u v t = Ok d -> exists d', get_link u v t' = Ok d' /\ forall k, k <> "source" -> k <> "target" -> dget k d' = dget k d).
Proof. intros I U. pose proof (inv_reload t t' I U) as I'. apply unserialize_shape in U as [N E]. split; [apply (rel_keys _ _ _ N)|]. split; [|split; [|split]].
  - intros k. unfold nodes_of. clear -N. unfold rel_dict in N. induction N as [|x y l l' [H1 [H2 _]] F IH]; [reflexivity|]. cbn [filter]. rewrite H2.
    destruct (kind_eqb _ k); [|exact IH]. cbn [map]. congruence.
  - intros n i m ips. unfold get_addresses. destruct (dget n (tp_nodes t)) as [nd|] eqn:G; [|discriminate]. destruct (rel_get _ _ _ _ _ N G) as (nd' & -> & [_ R]).
    destruct (dget i (tn_ifs nd)) as [x|] eqn:G2; [|discriminate]. destruct (rel_get _ _ _ _ _ R G2) as (y & -> & [K1 K2]).
    intros H. apply ok_pair_inj in H as [<- <-]. exists (if_ips y). split; [congruence|]. exact K2.
  - intros u v. apply eq_true_iff_eq. rewrite (has_link_in u v t'), (links_iff false t u v I). split.
    + intros (y & H & J). destruct (Forall2_in_r _ _ _ _ E H) as (x & X & [F _]). unfold links.
      destruct x as [[a c] d], y as [[a2 c2] d2]. cbn [fst] in F. injection F as -> ->. apply joins_iff in J.
      destruct J as [[-> ->]|[-> ->]]; [left|right]; apply (in_map fst) in X; exact X.
    + assert (Q : forall p q, In (p, q) (links t) -> exists e, In e (tp_edges t') /\ joins p q e = true).
      { intros p q Hp. unfold links in Hp. apply in_map_iff in Hp as (x & Ex & X). destruct (Forall2_in_l _ _ _ _ E X) as (y & Y & [F _]).
        exists y. split; [exact Y|]. destruct x as [[a c] d], y as [[a2 c2] d2]. cbn [fst] in *. injection F as -> ->. injection Ex as -> ->. apply joins_iff. auto. }
      intros [H|H]; apply Q in H as (e & E1 & E2); exists e; split; auto. rewrite joins_sym. exact E2.
  - intros u v d G. apply get_link_in in G as (e & H & J & <-). destruct (edge_list_all t e H) as (x & X & S & V).
    + destruct (inv_ends false t I e (fst (fst e)) H (or_introl eq_refl)) as (nd & j & G & _). apply dget_nodes in G. exact G.
    + destruct (Forall2_in_l _ _ _ _ E X) as (y & Y & [F Q]). exists (snd y). split; [|intros k K1 K2; rewrite Q by assumption; congruence].
      unfold get_link. rewrite (find_sep _ u v y (inv_sep false t' I') Y); [reflexivity|]. apply (same_joins2 u v x); [apply (same_joins2 u v e); assumption|].
      rewrite (same_fst x x x y) by auto. apply same_refl. Qed.
