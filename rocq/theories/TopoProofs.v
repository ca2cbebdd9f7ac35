(** Invariants of topologies. *)
From Verif Require Import BaseLemmas CodecLemmas EthAddrModel EthAddrSpec EthAddrProofs TopoModel TopoNames.

(** ** Edges *)
Definition ends (e : edge) : str * str := fst e.
Definition touches (n : str) (e : edge) : Prop := n = fst (fst e) \/ n = snd (fst e).
Definition same (e1 e2 : edge) : bool := joins (fst (fst e1)) (snd (fst e1)) e2.
Definition sep (es : list edge) : Prop := ForallOrdPairs (fun e1 e2 => same e1 e2 = false) es.
Lemma joins_iff u v a b d : joins u v (a, b, d) = true <-> (u = a /\ v = b) \/ (u = b /\ v = a).
Proof. unfold joins. rewrite orb_true_iff, !andb_true_iff, !str_eqb_eq. reflexivity. Qed.
Lemma joins_sym u v e : joins u v e = joins v u e.
Proof. destruct e as [[a b] d]. apply eq_true_iff_eq. rewrite !joins_iff. tauto. Qed.
Lemma joins_fst u v e x : joins u v (fst e, x) = joins u v e.
Proof. destruct e as [[a b] d]. reflexivity. Qed.
Lemma same_sym a b : same a b = same b a.
Proof. destruct a as [[a1 a2] d1], b as [[b1 b2] d2]. unfold same. cbn [fst snd]. apply eq_true_iff_eq. rewrite !joins_iff. intuition congruence. Qed.
Lemma same_joins u v e1 e2 : joins u v e1 = true -> joins u v e2 = true -> same e1 e2 = true.
Proof. destruct e1 as [[a1 a2] d1], e2 as [[b1 b2] d2]. unfold same. cbn [fst snd]. rewrite !joins_iff. intuition congruence. Qed.
Lemma same_joins2 u v e1 e2 : joins u v e1 = true -> same e1 e2 = true -> joins u v e2 = true.
Proof. destruct e1 as [[a1 a2] d1], e2 as [[b1 b2] d2]. unfold same. cbn [fst snd]. rewrite !joins_iff. intuition congruence. Qed.
Lemma same_refl e : same e e = true.
Proof. destruct e as [[a b] d]. unfold same. cbn [fst snd]. apply joins_iff. auto. Qed.
Lemma sep_unique es : sep es -> forall e1 e2, In e1 es -> In e2 es -> same e1 e2 = true -> e1 = e2.
Proof. induction 1 as [|a l F S IH]; intros e1 e2 H1 H2 E; [destruct H1|]. rewrite Forall_forall in F. destruct H1 as [<-|H1], H2 as [<-|H2].
  - reflexivity.
  - rewrite (F _ H2) in E. discriminate.
  - rewrite same_sym, (F _ H1) in E. discriminate.
  - auto. Qed.
Lemma sep_app a b : sep a -> sep b -> (forall x y, In x a -> In y b -> same x y = false) -> sep (a ++ b).
Proof. induction 1 as [|x l F S IH]; intros B C; [exact B|]. cbn [app]. constructor.
  - apply Forall_app. split; [exact F|]. apply Forall_forall. intros y Hy. apply C; [left; reflexivity|exact Hy].
  - apply IH; [exact B|]. intros p q Hp Hq. apply C; [right; exact Hp|exact Hq]. Qed.
Lemma sep_filter f es : sep es -> sep (filter f es).
Proof. induction 1 as [|x l F S IH]; cbn [filter]; [constructor|]. destruct (f x); [|exact IH]. constructor; [|exact IH].
  rewrite Forall_forall in *. intros y Hy. apply filter_In in Hy. apply F. tauto. Qed.
Lemma sep_map f es : (forall e, In e es -> fst (f e) = fst e) -> sep es -> sep (map f es).
Proof. intros E S. induction S as [|x l F S IH]; cbn [map]; [constructor|]. constructor.
  - rewrite Forall_forall in *. intros y Hy. apply in_map_iff in Hy as (z & <- & Hz). unfold same. rewrite (E x) by (left; auto).
    pose proof (E z (or_intror Hz)) as Ez. specialize (F z Hz). unfold same in F. destruct (f z) as [ab d], z as [ab' d']. cbn in Ez. subst ab'. destruct ab. exact F.
  - apply IH. intros e He. apply E. right. exact He. Qed.
Lemma find_sep es u v e : sep es -> In e es -> joins u v e = true -> find (joins u v) es = Some e.
Proof. intros S H J. destruct (find (joins u v) es) as [e2|] eqn:E.
  - apply find_some in E as [E1 E2]. f_equal. apply (sep_unique es S); auto. apply (same_joins u v); auto.
  - exfalso. apply (find_none _ _ E) in H. congruence. Qed.

(** *** Attributes *)
Lemma in_set_attr u v k x es e : In e (set_attr u v k x es) ->
  exists d, In (fst e, d) es /\ snd e = if joins u v e then dset k x d else d.
Proof. unfold set_attr. intros H. apply in_map_iff in H as ([ab d] & E & H). destruct (joins u v (ab, d)) eqn:J; subst e.
  - exists d. cbn [fst snd]. split; [exact H|]. rewrite <- (joins_fst u v (ab, d) (dset k x d)) in J. cbn [fst] in J. rewrite J. reflexivity.
  - exists d. cbn [fst snd]. rewrite J. auto. Qed.
Lemma sep_set_attr u v k x es : sep es -> sep (set_attr u v k x es).
Proof. apply sep_map. intros e _. destruct (joins u v e); reflexivity. Qed.
Lemma sep_add_edge u v es : sep es -> sep (add_edge u v es).
Proof. intros S. unfold add_edge. destruct (existsb (joins u v) es) eqn:E; [exact S|]. apply sep_app; [exact S|repeat constructor|].
  intros x y Hx [<-|[]]. destruct (same x (u, v, [])) eqn:J; [|reflexivity]. rewrite same_sym in J. unfold same in J. cbn [fst snd] in J.
  assert (existsb (joins u v) es = true) by (apply existsb_exists; eauto). congruence. Qed.
Lemma joins_touch u v n e : joins u v e = true -> touches n e -> n = u \/ n = v.
Proof. destruct e as [[a b] d]. rewrite joins_iff. unfold touches. cbn [fst snd]. intuition congruence. Qed.
Lemma touch_joins u v e : joins u v e = true -> touches u e /\ touches v e.
Proof. destruct e as [[a b] d]. rewrite joins_iff. unfold touches. cbn [fst snd]. intuition congruence. Qed.

(** *** The edge list *)
Definition view (n : str) (seen : list str) (e : edge) : list edge :=
  let '(a, b, d) := e in
  if str_eqb n a then (if smem b seen then [] else [(a, b, d)])
  else if str_eqb n b then (if smem a seen then [] else [(b, a, d)]) else [].
Lemma edges_from_cons n r seen es : edges_from (n :: r) seen es = List.concat (map (view n seen) es) ++ edges_from r (n :: seen) es.
Proof. reflexivity. Qed.
Lemma in_view n seen e x : In x (view n seen e) ->
  fst (fst x) = n /\ ~ In (snd (fst x)) seen /\ same e x = true /\ snd x = snd e.
Proof. destruct e as [[a b] d]. unfold view. destruct (str_spec n a); [subst; destruct (smem b seen) eqn:E|destruct (str_spec n b); [subst; destruct (smem a seen) eqn:E|]];
  intros H; try destruct H as [<-|[]]; try destruct H; cbn [fst snd]; (split; [reflexivity|]).
  - split; [intros H; apply smem_In in H; congruence|]. split; [apply same_refl|reflexivity].
  - split; [intros H; apply smem_In in H; congruence|]. split; [unfold same; cbn [fst snd]; apply joins_iff; auto|reflexivity]. Qed.
Lemma view_one n seen e : view n seen e = [] \/ exists x, view n seen e = [x].
Proof. destruct e as [[a b] d]. unfold view. destruct (str_eqb n a); [destruct (smem b seen); eauto|]. destruct (str_eqb n b); [destruct (smem a seen); eauto|]. auto. Qed.
Lemma in_views n seen es x : In x (List.concat (map (view n seen) es)) <-> exists e, In e es /\ In x (view n seen e).
Proof. rewrite in_concat. split.
  - intros (l & H1 & H2). apply in_map_iff in H1 as (e & <- & H). eauto.
  - intros (e & H1 & H2). exists (view n seen e). split; [apply in_map; exact H1|exact H2]. Qed.
Lemma in_edges_from ns : forall seen es x, In x (edges_from ns seen es) ->
  In (fst (fst x)) ns /\ ~ In (snd (fst x)) seen /\ exists e, In e es /\ same e x = true /\ snd x = snd e.
Proof. induction ns as [|n r IH]; intros seen es x H; [destruct H|]. rewrite edges_from_cons in H. apply in_app_or in H as [H|H].
  - apply in_views in H as (e & H1 & H2). apply in_view in H2 as (A & B & C & D). split; [left; auto|]. split; [exact B|]. eauto.
  - apply IH in H as (A & B & e & C). split; [right; exact A|]. split; [intros H; apply B; right; exact H|]. eauto. Qed.
Lemma edges_from_all ns : forall seen es e, In e es -> (exists n, In n ns /\ touches n e) -> ~ In (fst (fst e)) seen -> ~ In (snd (fst e)) seen ->
  exists x, In x (edges_from ns seen es) /\ same e x = true /\ snd x = snd e.
Proof. induction ns as [|n r IH]; intros seen es e H (m & Hm & T) S1 S2; [destruct Hm|]. rewrite edges_from_cons.
  destruct e as [[a b] d]. unfold touches in *. cbn [fst snd] in *. destruct (str_spec n a); [|destruct (str_spec n b)].
  - exists (a, b, d). split; [|split; [apply same_refl|reflexivity]]. apply in_or_app. left. apply in_views. exists (a, b, d). split; [exact H|].
    unfold view. subst n. rewrite str_eqb_refl. destruct (smem b seen) eqn:E; [apply smem_In in E; contradiction|left; reflexivity].
  - exists (b, a, d). split; [|split; [unfold same; cbn [fst snd]; apply joins_iff; auto|reflexivity]]. apply in_or_app. left. apply in_views. exists (a, b, d).
    split; [exact H|]. unfold view. rewrite (str_eqb_neq n a) by auto. subst n. rewrite str_eqb_refl.
    destruct (smem a seen) eqn:E; [apply smem_In in E; contradiction|left; reflexivity].
  - destruct (IH (n :: seen) es (a, b, d) H) as (x & X1 & X2).
    + exists m. split; [|exact T]. destruct Hm as [->|Hm]; [|exact Hm]. unfold touches in T. cbn [fst snd] in T. destruct T; congruence.
    + cbn [fst snd]. intros [E|E]; [congruence|contradiction].
    + cbn [fst snd]. intros [E|E]; [congruence|contradiction].
    + exists x. split; [apply in_or_app; right; exact X1|exact X2]. Qed.
Lemma sep_views n seen es : sep es -> sep (List.concat (map (view n seen) es)).
Proof. induction 1 as [|e l F S IH]; cbn [map List.concat]; [constructor|]. apply sep_app; [|exact IH|].
  - destruct (view_one n seen e) as [->|[x ->]]; repeat constructor.
  - intros x y Hx Hy. apply in_view in Hx as (_ & _ & Sx & _). apply in_views in Hy as (e2 & H2 & Hy). apply in_view in Hy as (_ & _ & Sy & _).
    rewrite Forall_forall in F. specialize (F _ H2). destruct (same x y) eqn:E; [|reflexivity].
    rewrite same_sym in Sy. unfold same in *. rewrite <- F. symmetry. apply (same_joins2 _ _ y); [|exact Sy]. apply (same_joins2 _ _ x); assumption. Qed.
Lemma sep_edges_from ns : forall seen es, NoDup ns -> sep es -> sep (edges_from ns seen es).
Proof. induction ns as [|n r IH]; intros seen es N S; [constructor|]. inversion N; subst. rewrite edges_from_cons. apply sep_app.
  - apply sep_views. exact S.
  - apply IH; assumption.
  - intros x y Hx Hy. apply in_views in Hx as (e & _ & Hx). apply in_view in Hx as (A & _). apply in_edges_from in Hy as (B & C & _).
    destruct (same x y) eqn:E; [|reflexivity]. destruct x as [[a b] d], y as [[a2 b2] d2]. unfold same in E. cbn [fst snd] in *.
    apply joins_iff in E as [[-> ->]|[-> ->]]; subst; [contradiction|]. exfalso. apply C. left. reflexivity. Qed.
Lemma edge_list_sep t : NoDup (nodes t) -> sep (tp_edges t) -> sep (edge_list t).
Proof. apply sep_edges_from. Qed.
Lemma edge_list_in t x : In x (edge_list t) -> exists e, In e (tp_edges t) /\ same e x = true /\ snd x = snd e.
Proof. intros H. apply in_edges_from in H as (_ & _ & H). exact H. Qed.
Lemma edge_list_all t e : In e (tp_edges t) -> In (fst (fst e)) (nodes t) -> exists x, In x (edge_list t) /\ same e x = true /\ snd x = snd e.
Proof. intros H N. apply edges_from_all; auto. exists (fst (fst e)). split; [exact N|left; reflexivity]. Qed.
