(** Facts about the dictionary model. *)
From Verif Require Export Dict.
Lemma str_eqb_eq a b : str_eqb a b = true <-> a = b.
Proof. apply String.eqb_eq. Qed.
Lemma str_eqb_refl a : str_eqb a a = true.
Proof. apply str_eqb_eq. reflexivity. Qed.
Lemma str_eqb_neq a b : a <> b -> str_eqb a b = false.
Proof. intros H. destruct (str_eqb a b) eqn:E; auto. apply str_eqb_eq in E. contradiction. Qed.
Lemma str_spec a b : reflect (a = b) (str_eqb a b).
Proof. apply iff_reflect. symmetry. apply str_eqb_eq. Qed.
Lemma smem_In k l : smem k l = true <-> In k l.
Proof. unfold smem. rewrite existsb_exists. split.
  - intros (x & H1 & H2). apply str_eqb_eq in H2. subst. exact H1.
  - intros H. exists k. split; [exact H|apply str_eqb_refl]. Qed.
Section D.
Context {V : Type}.
Implicit Types d : dict V.
Lemma dget_In k v d : dget k d = Some v -> In (k, v) d.
Proof. induction d as [|[k' v'] r IH]; [discriminate|]. cbn [dget]. destruct (str_spec k k'); intros H.
  - left. congruence. - right. auto. Qed.
Lemma dget_None k d : dget k d = None <-> ~ In k (dkeys d).
Proof. induction d as [|[k' v'] r IH]; cbn [dget dkeys map fst In]; [tauto|]. destruct (str_spec k k').
  - split; [discriminate|]. intros H. exfalso. apply H. left. congruence.
  - rewrite IH. unfold dkeys. intuition congruence. Qed.
Lemma In_dget k v d : NoDup (dkeys d) -> In (k, v) d -> dget k d = Some v.
Proof. induction d as [|[k' v'] r IH]; intros N H; [destruct H|]. inversion N; subst. cbn [dget]. destruct H as [H|H].
  - injection H as -> ->. rewrite str_eqb_refl. reflexivity.
  - destruct (str_spec k k'); [|auto]. subst. exfalso. apply H2. apply (in_map fst) in H. exact H. Qed.
Lemma dget_dset_same k v d : dget k (dset k v d) = Some v.
Proof. induction d as [|[k' v'] r IH]; cbn [dset dget].
  - rewrite str_eqb_refl. reflexivity.
  - destruct (str_spec k k'); cbn [dget]; [subst; rewrite str_eqb_refl; reflexivity|]. rewrite (str_eqb_neq k k') by auto. exact IH. Qed.
Lemma dget_dset_other k k2 v d : k <> k2 -> dget k (dset k2 v d) = dget k d.
Proof. intros N. induction d as [|[k' v'] r IH]; cbn [dset dget].
  - rewrite str_eqb_neq by auto. reflexivity.
  - destruct (str_spec k2 k'); cbn [dget]; [subst; rewrite !str_eqb_neq by auto; reflexivity|]. destruct (str_spec k k'); auto. Qed.
Lemma dkeys_dset_in k v d : In k (dkeys d) -> dkeys (dset k v d) = dkeys d.
Proof. unfold dkeys. induction d as [|[k' v'] r IH]; cbn [map fst In dset]; [contradiction|]. intros H. destruct (str_spec k k').
  - reflexivity. - cbn [map fst]. rewrite IH; auto. destruct H; [congruence|auto]. Qed.
Lemma dset_new k v d : ~ In k (dkeys d) -> dset k v d = d ++ [(k, v)].
Proof. unfold dkeys. induction d as [|[k' v'] r IH]; cbn [map fst In dset app]; intros H; [reflexivity|].
  rewrite str_eqb_neq by (intros ->; tauto). rewrite IH by tauto. reflexivity. Qed.
Lemma dkeys_dset_new k v d : ~ In k (dkeys d) -> dkeys (dset k v d) = dkeys d ++ [k].
Proof. intros H. rewrite dset_new by exact H. unfold dkeys. rewrite map_app. reflexivity. Qed.
Lemma dset_NoDup k v d : NoDup (dkeys d) -> NoDup (dkeys (dset k v d)).
Proof. intros N. destruct (in_dec String.string_dec k (dkeys d)) as [H|H].
  - rewrite dkeys_dset_in by auto. exact N.
  - rewrite dkeys_dset_new by auto. apply NoDup_Add with (a := k) (l := dkeys d); [|split; auto].
    rewrite <- (app_nil_r (dkeys d)) at 1. apply Add_app. Qed.
Lemma ddel_spec k d : NoDup (dkeys d) -> (forall k2 v, In (k2, v) (ddel k d) <-> In (k2, v) d /\ k2 <> k).
Proof. induction d as [|[k' v'] r IH]; cbn [ddel dkeys map fst]; intros N k2 v; [cbn; tauto|]. inversion N; subst.
  destruct (str_spec k k').
  - subst. cbn [In]. split.
    + intros H. split; [auto|]. intros ->. apply H1. apply (in_map fst) in H. exact H.
    + intros [[H|H] Hn]; [injection H as -> ->; congruence|auto].
  - cbn [In]. rewrite (IH H2 k2 v). split; [intros [H|H]|intros [[H|H] Hn]]; [|tauto|tauto|tauto].
    injection H as -> ->. split; [auto|]. congruence. Qed.
Lemma dkeys_ddel k d : incl (dkeys (ddel k d)) (dkeys d).
Proof. unfold dkeys. induction d as [|[k' v'] r IH]; cbn [ddel map fst]; [apply incl_refl|]. destruct (str_spec k k').
  - apply incl_tl, incl_refl. - cbn [map fst]. intros x [H|H]; [left; auto|right; apply IH; auto]. Qed.
Lemma ddel_NoDup k d : NoDup (dkeys d) -> NoDup (dkeys (ddel k d)).
Proof. unfold dkeys. induction d as [|[k' v'] r IH]; cbn [ddel map fst]; intros N; [constructor|]. inversion N; subst. destruct (str_spec k k'); auto.
  cbn [map fst]. constructor; auto. intros H. apply H1. apply (dkeys_ddel k r). exact H. Qed.
Lemma dget_ddel_same k d : NoDup (dkeys d) -> dget k (ddel k d) = None.
Proof. intros N. apply dget_None. intros H. unfold dkeys in H. apply in_map_iff in H as ((k2, v) & H1 & H2). cbn in H1. subst.
  apply ddel_spec in H2 as [_ H]; auto. Qed.
Lemma dget_ddel_other k k2 d : k <> k2 -> dget k (ddel k2 d) = dget k d.
Proof. intros N. induction d as [|[k' v'] r IH]; cbn [ddel dget]; [reflexivity|]. destruct (str_spec k2 k').
  - subst. rewrite str_eqb_neq by auto. reflexivity.
  - cbn [dget]. destruct (str_spec k k'); auto. Qed.
Lemma din_iff k d : din k d = true <-> In k (dkeys d).
Proof. unfold din. destruct (dget k d) eqn:E.
  - split; [|reflexivity]. intros _. apply dget_In in E. apply (in_map fst) in E. exact E.
  - apply dget_None in E. split; [discriminate|contradiction]. Qed.
Lemma ddel_length k d : In k (dkeys d) -> List.length d = S (List.length (ddel k d)).
Proof. unfold dkeys. induction d as [|[k' v'] r IH]; cbn [ddel map fst In List.length]; [contradiction|]. intros [H|H].
  - subst. rewrite str_eqb_refl. reflexivity.
  - destruct (str_spec k k'); [reflexivity|]. cbn [List.length]. rewrite <- IH; auto. Qed.
End D.
