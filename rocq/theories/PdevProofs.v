(** Proofs about the register of live capture devices. *)
From Coq Require Import List ZArith Bool Lia.
From Verif Require Import Dict PdevModel PdevSpec.
Import ListNotations.

(** ** Dictionaries *)
Section N.
Context {V : Type}.
Implicit Types d : list (nat * V).
Lemma nget_nset : forall d k v j, nget (nset d k v) j = if Nat.eqb k j then Some v else nget d j.
Proof.
  induction d as [|[a w] d IH]; intros k v j; cbn [nset nget]; [reflexivity|].
  destruct (Nat.eqb_spec a k) as [->|E].
  - cbn [nget]. destruct (Nat.eqb k j); reflexivity.
  - cbn [nget]. rewrite IH. destruct (Nat.eqb_spec a j) as [->|]; [|reflexivity].
    destruct (Nat.eqb_spec k j) as [->|]; [contradiction|reflexivity].
Qed.
Lemma nget_ndel : forall d k j, nget (ndel d k) j = if Nat.eqb k j then None else nget d j.
Proof.
  unfold ndel. induction d as [|[a w] d IH]; intros k j; cbn; [destruct (Nat.eqb k j); reflexivity|].
  destruct (Nat.eqb_spec a k) as [->|E]; cbn.
  - rewrite IH. destruct (Nat.eqb k j); reflexivity.
  - rewrite IH. destruct (Nat.eqb_spec a j) as [->|]; [|reflexivity].
    destruct (Nat.eqb_spec k j) as [->|]; [contradiction|reflexivity].
Qed.
Lemma nget_snoc : forall d k v j, nget (d ++ [(k, v)]) j =
  match nget d j with Some w => Some w | None => if Nat.eqb k j then Some v else None end.
Proof.
  induction d as [|[a w] d IH]; intros k v j; cbn; [destruct (Nat.eqb k j); reflexivity|].
  destruct (Nat.eqb a j); [reflexivity|apply IH].
Qed.
Lemma nget_in : forall d k v, nget d k = Some v -> In (k, v) d.
Proof.
  induction d as [|[a w] d IH]; intros k v; cbn; [discriminate|].
  destruct (Nat.eqb_spec a k) as [->|]; [intros [= ->]; now left|intros H; right; now apply IH].
Qed.
Lemma in_nget : forall d k v, NoDup (map fst d) -> In (k, v) d -> nget d k = Some v.
Proof.
  induction d as [|[a w] d IH]; intros k v Hn Hi; [destruct Hi|]. cbn in *. inversion Hn as [|x l Hx Hl]; subst.
  destruct Hi as [[= -> ->]|Hi]; [now rewrite Nat.eqb_refl|].
  destruct (Nat.eqb_spec a k) as [->|]; [|now apply IH].
  exfalso. apply Hx. apply in_map_iff. now exists (k, v).
Qed.
Lemma nset_keys : forall d k v x, In x (map fst (nset d k v)) <-> x = k \/ In x (map fst d).
Proof.
  induction d as [|[a w] d IH]; intros k v x; cbn; [intuition|].
  destruct (Nat.eqb_spec a k) as [->|]; cbn; [intuition|]. rewrite IH. intuition.
Qed.
Lemma nset_nodup : forall d k v, NoDup (map fst d) -> NoDup (map fst (nset d k v)).
Proof.
  induction d as [|[a w] d IH]; intros k v H; cbn; [repeat constructor; intros []|].
  cbn in H. inversion H as [|x l Hx Hl]; subst.
  destruct (Nat.eqb_spec a k) as [->|]; cbn; [now constructor|].
  constructor; [|now apply IH]. rewrite nset_keys. intros [->|Hi]; contradiction.
Qed.
Lemma ndel_nodup : forall d k, NoDup (map fst d) -> NoDup (map fst (ndel d k)).
Proof.
  induction d as [|[a w] d IH]; intros k H; cbn; [constructor|].
  cbn in H. inversion H as [|x l Hx Hl]; subst.
  destruct (Nat.eqb a k); cbn; [now apply IH|]. constructor; [|now apply IH].
  intros Hi. apply Hx. apply in_map_iff in Hi as ((b & c) & <- & Hi). apply filter_In in Hi as (Hi & _).
  apply in_map_iff. now exists (b, c).
Qed.
End N.

Lemma nmem_In : forall k l, nmem k l = true <-> In k l.
Proof.
  intros. unfold nmem. rewrite existsb_exists. split.
  - intros (x & H & E). apply Nat.eqb_eq in E. now subst.
  - intros H. exists k. now rewrite Nat.eqb_refl.
Qed.
Lemma nrm_In : forall k l x, In x (nrm k l) <-> In x l /\ x <> k.
Proof.
  intros. unfold nrm. rewrite filter_In. rewrite negb_true_iff, Nat.eqb_neq. reflexivity.
Qed.

(** ** Events *)
Lemma snoc_split : forall {A} (l : list A) a pre e post, l ++ [a] = pre ++ e :: post ->
  (pre = l /\ e = a /\ post = []) \/ exists post', post = post' ++ [a] /\ l = pre ++ e :: post'.
Proof.
  intros A l a pre e post H. destruct post as [|p post] using rev_ind.
  - left. apply app_inj_tail in H as (-> & ->). auto.
  - right. exists post. rewrite app_comm_cons, app_assoc in H. apply app_inj_tail in H as (-> & ->). auto.
Qed.

Lemma well_snoc : forall l a, well_used l ->
  match a with
  | EOpen h => ~ In (EOpen h) l
  | EClose h => In (EOpen h) l /\ ~ In (EClose h) l
  | EFilt _ r _ => exists h, r = Some h /\ In (EOpen h) l /\ ~ In (EClose h) l
  | _ => True
  end -> well_used (l ++ [a]).
Proof.
  intros l a H Ha pre e post E. destruct (snoc_split _ _ _ _ _ E) as [(-> & -> & ->)|(post' & -> & E')]; [exact Ha|].
  exact (H _ _ _ E').
Qed.

Lemma ready_snoc : forall l a id h, ready_dev (l ++ [a]) id h ->
  a = EReady id h \/ (ready_dev l id h /\ a <> EDrop id /\ forall h', a <> EGone id h').
Proof.
  intros l a id h (pre & post & E & H).
  destruct (snoc_split _ _ _ _ _ E) as [(-> & Ha & ->)|(post' & -> & E')]; [now left|].
  right. split; [|apply H; apply in_or_app; right; now left].
  exists pre, post'. split; [exact E'|]. intros e He. apply H. apply in_or_app. now left.
Qed.

Lemma quiet_nil : forall t, quiet t [].
Proof. intros t f. split; [|intros ok]; intros []. Qed.
Lemma quiet_snoc : forall t l a, quiet t l -> (forall f, a <> EAll t f) -> (forall f ok, a <> EDone t f ok) -> quiet t (l ++ [a]).
Proof.
  intros t l a H H1 H2 f. destruct (H f) as (Ha & Hb). split.
  - rewrite in_app_iff. intros [?|[?|[]]]; [contradiction|]. eapply H1; eassumption.
  - intros ok. rewrite in_app_iff. intros [?|[?|[]]]; [now apply (Hb ok)|]. eapply H2; eassumption.
Qed.
Lemma quiet_app_l : forall t a b, quiet t (a ++ b) -> quiet t a.
Proof.
  intros t a b H f. destruct (H f) as (Ha & Hb). split; [|intros ok]; intros Hi; [apply Ha|apply (Hb ok)];
  apply in_or_app; now left.
Qed.

(** The last beginning of a call is unique. *)
Lemma last_all : forall t f l1 l2 f' m1 m2, l1 ++ EAll t f :: l2 = m1 ++ EAll t f' :: m2 -> quiet t l2 -> quiet t m2 ->
  l1 = m1 /\ f = f' /\ l2 = m2.
Proof.
  intros t f l1 l2 f' m1 m2. revert m1. induction l1 as [|x l1 IH]; intros [|y m1] E Q1 Q2; cbn in E.
  - injection E as <- <-. auto.
  - injection E as <- ->. exfalso. apply (proj1 (Q1 f')). apply in_or_app. right. now left.
  - injection E as -> <-. exfalso. apply (proj1 (Q2 f)). apply in_or_app. right. now left.
  - injection E as -> E. destruct (IH _ E Q1 Q2) as (-> & -> & ->). auto.
Qed.

(** ** The invariant *)
Definition isopen (s : st) (h : nat) : Prop := nget (opn s) h <> None.

(** The handle that is a thread's own affair: opened and not yet registered, or off the register and not yet closed. *)
Definition owns (c : pc) : option nat :=
  match c with POpened _ h _ => Some h | PCreated _ r => r | PClosing h => Some h | _ => None end.
Definition building (c : pc) : option nat :=
  match c with POpened id _ _ => Some id | PCreated id _ => Some id | POwn id _ _ => Some id | _ => None end.

Record Core (s : st) : Prop := {
  i_reg : forall id r, nget (reg s) id = Some r -> exists h, r = Some h /\ isopen s h;
  i_keys : NoDup (map fst (reg s));
  i_inj : forall a b h, nget (reg s) a = Some (Some h) -> nget (reg s) b = Some (Some h) -> a = b;
  i_null : forall t id, pcs s t <> PCreated id None;
  i_owns : forall t h, owns (pcs s t) = Some h -> isopen s h;
  i_owns_reg : forall t h id, owns (pcs s t) = Some h -> nget (reg s) id <> Some (Some h);
  i_owns_one : forall t u h, owns (pcs s t) = Some h -> owns (pcs s u) = Some h -> t = u;
  i_build : forall t id, building (pcs s t) = Some id -> In id (busy s);
  i_build_one : forall t u id, building (pcs s t) = Some id -> building (pcs s u) = Some id -> t = u;
  i_busy : forall id, In id (busy s) -> nget (objs s) id = None;
  i_own : forall t id h f, pcs s t = POwn id h f -> nget (reg s) id = Some (Some h);
  i_obj : forall id h, nget (objs s) id = Some h -> nget (reg s) id = None \/ nget (reg s) id = Some (Some h);
  i_fresh : forall h, In (EOpen h) (log s) -> (h < nexth s)%nat;
  i_log : forall h, isopen s h <-> In (EOpen h) (log s) /\ ~ In (EClose h) (log s);
  i_closed : forall h, In (EClose h) (log s) -> In (EOpen h) (log s);
  i_used : well_used (log s);
  i_lock : forall t, lock s = Some t <-> exists f todo, pcs s t = PAll f todo;
  i_ready : forall id h, ready_dev (log s) id h -> nget (objs s) id = Some h /\ nget (reg s) id = Some (Some h) }.

Lemma setf_spec : forall fok o r f o', setf fok o r f = Some o' ->
  exists h k, r = Some h /\ nget o h = Some k /\ h_act k = true /\ fok f (h_dlt k) = true /\
    o' = nset o h (mkH true (h_dlt k) (Some f)).
Proof.
  intros fok o [h|] f o' H; cbn in H; [|discriminate]. destruct (nget o h) as [k|] eqn:E; [|discriminate].
  destruct (h_act k && fok f (h_dlt k)) eqn:B; [|discriminate]. apply andb_true_iff in B as (B1 & B2).
  injection H as <-. exists h, k. auto.
Qed.
Lemma setf_open : forall fok o r f o' j, setf fok o r f = Some o' -> nget o' j <> None <-> nget o j <> None.
Proof.
  intros fok o r f o' j H. apply setf_spec in H as (h & k & -> & E & _ & _ & ->). rewrite nget_nset.
  destruct (Nat.eqb_spec h j) as [->|]; [|reflexivity]. rewrite E. split; discriminate.
Qed.

(** Events that say nothing about handles or objects. *)
Definition plain (e : ev) : bool :=
  match e with EOpen _ | EClose _ | EFilt _ _ _ | EReady _ _ | EGone _ _ | EDrop _ => false | _ => true end.

Ltac upd_case :=
  unfold upd in *;
  repeat match goal with
  | H : context [if Nat.eqb ?a ?b then _ else _] |- _ => destruct (Nat.eqb_spec a b); subst
  | |- context [if Nat.eqb ?a ?b then _ else _] => destruct (Nat.eqb_spec a b); subst
  end.

Ltac tidy := cbn [reg lock opn nexth objs busy pcs log] in *.

Lemma core_0 : Core st0.
Proof.
  constructor; cbn; unfold isopen; cbn.
  - discriminate.
  - constructor.
  - discriminate.
  - discriminate.
  - discriminate.
  - discriminate.
  - discriminate.
  - discriminate.
  - discriminate.
  - reflexivity.
  - discriminate.
  - now left.
  - intros h [].
  - intros h. split; [congruence|intros ([] & _)].
  - intros h [].
  - intros [|x l] e post E; discriminate.
  - intros t. split; [discriminate|intros (? & ? & ?); discriminate].
  - intros id h ([|x l] & post & E & _); discriminate.
Qed.

(** What the parts of the log say is unchanged by plain events. *)
Lemma in_snoc : forall {A} (x a : A) l, In x (l ++ [a]) <-> In x l \/ x = a.
Proof. intros. rewrite in_app_iff. cbn. intuition. Qed.

Lemma log_plain : forall s e, Core s -> plain e = true ->
  (forall h, In (EOpen h) (log s ++ [e]) <-> In (EOpen h) (log s)) /\
  (forall h, In (EClose h) (log s ++ [e]) <-> In (EClose h) (log s)) /\
  well_used (log s ++ [e]) /\
  (forall id h, ready_dev (log s ++ [e]) id h -> ready_dev (log s) id h).
Proof.
  intros s e I P. repeat split.
  - rewrite in_snoc. intros [?|<-]; [assumption|discriminate].
  - rewrite in_snoc. now left.
  - rewrite in_snoc. intros [?|<-]; [assumption|discriminate].
  - rewrite in_snoc. now left.
  - apply well_snoc; [apply I|]. destruct e; try discriminate; exact Logic.I.
  - intros id h H. apply ready_snoc in H as [->|(H & _)]; [discriminate|exact H].
Qed.

(** Changes that leave the register, the objects and the open handles (but not their filters) as they are. *)
Lemma core_same : forall s s', Core s ->
  reg s' = reg s -> (forall h, isopen s' h <-> isopen s h) -> nexth s' = nexth s -> objs s' = objs s -> busy s' = busy s ->
  (forall t, owns (pcs s' t) = owns (pcs s t) /\ building (pcs s' t) = building (pcs s t)) ->
  (forall t id, pcs s' t <> PCreated id None) ->
  (forall t id h f, pcs s' t = POwn id h f -> pcs s t = POwn id h f) ->
  (forall t, lock s' = Some t <-> exists f todo, pcs s' t = PAll f todo) ->
  (forall h, In (EOpen h) (log s') <-> In (EOpen h) (log s)) ->
  (forall h, In (EClose h) (log s') <-> In (EClose h) (log s)) ->
  well_used (log s') ->
  (forall id h, ready_dev (log s') id h -> ready_dev (log s) id h) -> Core s'.
Proof.
  intros s s' I Er Eo En Eb Eu Ep Ec Ew El L1 L2 L3 L4.
  assert (Po : forall t, owns (pcs s' t) = owns (pcs s t)) by (intros; apply Ep).
  assert (Pb : forall t, building (pcs s' t) = building (pcs s t)) by (intros; apply Ep).
  constructor.
  - intros id r. rewrite Er. intros H. apply I in H as (h & -> & H). exists h. rewrite Eo. auto.
  - rewrite Er. apply I.
  - rewrite Er. apply I.
  - exact Ec.
  - intros t h. rewrite Po, Eo. apply I.
  - intros t h id. rewrite Po, Er. apply I.
  - intros t u h. rewrite !Po. apply I.
  - intros t id. rewrite Pb, Eu. apply I.
  - intros t u id. rewrite !Pb. apply I.
  - intros id. rewrite Eu, Eb. apply I.
  - intros t id h f H. rewrite Er. apply Ew in H. revert H. apply I.
  - intros id h. rewrite Eb, Er. apply I.
  - intros h. rewrite L1, En. apply I.
  - intros h. rewrite Eo, L1, L2. apply I.
  - intros h. rewrite L1, L2. apply I.
  - exact L3.
  - exact El.
  - intros id h H. rewrite Eb, Er. apply I, L4, H.
Qed.

(** Handing out a handle to a thread that was idle (or to nobody: a handle that leaks). *)
Lemma isopen_snoc : forall s s' k h, opn s' = opn s ++ [(nexth s, k)] -> isopen s' h <-> isopen s h \/ h = nexth s.
Proof.
  intros s s' k h E. unfold isopen. rewrite E, nget_snoc. destruct (nget (opn s) h) eqn:G.
  - split; [left; congruence|discriminate].
  - destruct (Nat.eqb_spec (nexth s) h) as [<-|N]; split; try discriminate; auto; try congruence.
    intros [?| ->]; congruence.
Qed.

Lemma core_open : forall s s' k c t id, Core s ->
  reg s' = reg s -> opn s' = opn s ++ [(nexth s, k)] -> nexth s' = S (nexth s) -> objs s' = objs s -> lock s' = lock s ->
  log s' = log s ++ [EOpen (nexth s)] -> pcs s t = PIdle ->
  (busy s' = busy s /\ pcs s' = pcs s \/
   busy s' = id :: busy s /\ live s id = false /\ pcs s' = upd (pcs s) t c /\ owns c = Some (nexth s) /\
     building c = Some id /\ (forall a h f, c <> POwn a h f) /\ (forall f l, c <> PAll f l)) -> Core s'.
Proof.
  intros s s' k c t id I Er Eo En Eb El Eg Ht Hc.
  pose proof (fun h => isopen_snoc s s' k h Eo) as Op.
  assert (Fr : forall h, isopen s h -> (h < nexth s)%nat) by (intros h H; apply I, (proj1 (i_log s I h)), H).
  assert (Po : forall u h, owns (pcs s' u) = Some h -> owns (pcs s u) = Some h \/ (u = t /\ h = nexth s)).
  { intros u h H. destruct Hc as [(_ & Ec)|(_ & _ & Ec & Oc & _)]; rewrite Ec in H; [now left|].
    unfold upd in H. destruct (Nat.eqb_spec u t); [|now left]. right. split; congruence. }
  assert (Pb : forall u a, building (pcs s' u) = Some a -> building (pcs s u) = Some a \/ (u = t /\ a = id /\ live s id = false /\ In id (busy s'))).
  { intros u a H. destruct Hc as [(_ & Ec)|(Eu & Lv & Ec & _ & Bc & _)]; rewrite Ec in H; [now left|].
    unfold upd in H. destruct (Nat.eqb_spec u t); [|now left]. right. rewrite Eu. cbn. repeat split; auto; congruence. }
  assert (Bu : forall a, In a (busy s') <-> In a (busy s) \/ (a = id /\ busy s' = id :: busy s /\ live s id = false)).
  { intros a. destruct Hc as [(Eu & _)|(Eu & Lv & _)]; rewrite Eu; [|cbn; intuition].
    split; [tauto|]. intros [?|(_ & X & _)]; [assumption|]. exfalso. clear -X. apply (f_equal (@List.length nat)) in X. cbn in X. lia. }
  assert (Lv : live s id = false -> ~ In id (busy s) /\ nget (objs s) id = None).
  { unfold live. rewrite orb_false_iff. intros (A & B). split.
    - intros Hi. apply nmem_In in Hi. congruence.
    - destruct (nget (objs s) id); [discriminate|reflexivity]. }
  constructor.
  - intros a r. rewrite Er. intros H. apply I in H as (h & -> & H). exists h. rewrite Op. auto.
  - rewrite Er. apply I.
  - rewrite Er. apply I.
  - intros u a H. assert (O : owns (pcs s' u) = None) by now rewrite H.
    destruct Hc as [(_ & Ec)|(_ & _ & Ec & Oc & _)]; rewrite Ec in *; [exact (i_null s I u a H)|].
    unfold upd in *. destruct (Nat.eqb_spec u t); [congruence|exact (i_null s I u a H)].
  - intros u h H. rewrite Op. apply Po in H as [H|(_ & ->)]; [left; now apply (i_owns s I u)|now right].
  - intros u h a H. rewrite Er. apply Po in H as [H|(_ & ->)]; [now apply (i_owns_reg s I u)|].
    intros H. apply I in H as (h & [= <-] & H). apply Fr in H. lia.
  - intros u v h H1 H2. apply Po in H1 as [H1|(-> & ->)]; apply Po in H2 as [H2|(-> & H2)]; subst; auto.
    + exact (i_owns_one s I u v h H1 H2).
    + apply (i_owns s I) in H1. apply Fr in H1. lia.
    + apply (i_owns s I) in H2. apply Fr in H2. lia.
  - intros u a H. apply Pb in H as [H|(_ & -> & _ & H)]; [|exact H]. apply Bu. left. now apply (i_build s I u).
  - intros u v a H1 H2. apply Pb in H1 as [H1|(-> & -> & L & _)]; apply Pb in H2 as [H2|(-> & E2 & L2 & _)]; subst; auto.
    + exact (i_build_one s I u v a H1 H2).
    + exfalso. apply (proj1 (Lv L2)). now apply (i_build s I u).
    + exfalso. apply (proj1 (Lv L)). now apply (i_build s I v).
  - intros a H. rewrite Eb. apply Bu in H as [H|(-> & _ & L)]; [now apply I|now apply Lv].
  - intros u a h f H. rewrite Er. destruct Hc as [(_ & Ec)|(_ & _ & Ec & _ & _ & Nc & _)]; rewrite Ec in H; [revert H; apply I|].
    unfold upd in H. destruct (Nat.eqb_spec u t); [now apply Nc in H|revert H; apply I].
  - intros a h. rewrite Eb, Er. apply I.
  - intros h. rewrite Eg, En, in_snoc. intros [H|[= ->]]; [|lia]. apply I in H. lia.
  - intros h. rewrite Op, Eg, !in_snoc. rewrite (i_log s I h). split.
    + intros [(A & B)| ->]; split; auto.
      * intros [?|?]; [contradiction|discriminate].
      * intros [H|?]; [|discriminate]. apply (i_closed s I) in H. apply (i_fresh s I) in H. lia.
    + intros ([A|A] & B); [left|injection A as ->; now right]. split; [exact A|]. intros H. apply B. now left.
  - intros h. rewrite Eg, !in_snoc. intros [H|?]; [|discriminate]. left. now apply (i_closed s I).
  - rewrite Eg. apply well_snoc; [apply I|]. intros H. apply I in H. lia.
  - intros u. rewrite El. destruct Hc as [(_ & Ec)|(_ & _ & Ec & _ & _ & _ & Nc)]; rewrite Ec; [apply I|].
    unfold upd. destruct (Nat.eqb_spec u t) as [->|]; [|apply I]. rewrite (i_lock s I t). split.
    + intros (f & l & H). rewrite Ht in H. discriminate.
    + intros (f & l & H). now apply Nc in H.
  - intros a h H. rewrite Eb, Er. rewrite Eg in H. apply ready_snoc in H as [H|(H & _)]; [discriminate|]. now apply I.
Qed.

(** Registering: the thread's handle goes on the register under the id of the object being built. *)
Lemma core_register : forall s s' t id h c, Core s ->
  reg s' = nset (reg s) id (Some h) -> opn s' = opn s -> nexth s' = nexth s -> pcs s' = upd (pcs s) t c ->
  lock s' = lock s -> owns (pcs s t) = Some h -> building (pcs s t) = Some id ->
  (busy s' = busy s /\ objs s' = objs s /\ log s' = log s /\ (exists f, c = POwn id h f) \/
   busy s' = nrm id (busy s) /\ objs s' = nset (objs s) id h /\ log s' = log s ++ [EReady id h] /\ c = PIdle) -> Core s'.
Proof.
  intros s s' t id h c I Er Eo En Ep El Ho Hb Hc.
  assert (Op : forall j, isopen s' j <-> isopen s j) by (intros; unfold isopen; now rewrite Eo).
  assert (Cf : owns c = None /\ (forall f l, c <> PAll f l) /\ (forall a, c <> PCreated a None) /\
    (forall a, building c = Some a -> a = id /\ busy s' = busy s) /\ (forall a j f, c = POwn a j f -> a = id /\ j = h)).
  { destruct Hc as [(E & _ & _ & f & ->)|(_ & _ & _ & ->)]; cbn; repeat split; try discriminate; try congruence. }
  destruct Cf as (C1 & C2 & C3 & C4 & C5).
  assert (Po : forall u j, owns (pcs s' u) = Some j -> owns (pcs s u) = Some j /\ u <> t).
  { intros u j. rewrite Ep. unfold upd. destruct (Nat.eqb_spec u t); [congruence|auto]. }
  assert (Bi : In id (busy s)) by now apply (i_build s I t).
  assert (Ob : nget (objs s) id = None) by now apply I.
  assert (Lg : (forall j, In (EOpen j) (log s') <-> In (EOpen j) (log s)) /\ (forall j, In (EClose j) (log s') <-> In (EClose j) (log s)) /\
    well_used (log s')).
  { destruct Hc as [(_ & _ & E & _)|(_ & _ & E & _)]; rewrite E; [repeat split; auto; apply I|].
    repeat split; try (rewrite in_snoc; intros [?|?]; [assumption|discriminate]); try (rewrite in_snoc; now left).
    apply well_snoc; [apply I|exact Logic.I]. }
  destruct Lg as (L1 & L2 & L3).
  constructor.
  - intros a r. rewrite Er, nget_nset. destruct (Nat.eqb_spec id a) as [<-|].
    + intros [= <-]. exists h. split; [reflexivity|]. rewrite Op. now apply (i_owns s I t).
    + intros H. apply I in H as (j & -> & H). exists j. now rewrite Op.
  - rewrite Er. apply nset_nodup, I.
  - intros a b j. rewrite Er, !nget_nset. destruct (Nat.eqb_spec id a) as [<-|]; destruct (Nat.eqb_spec id b) as [<-|]; auto.
    + intros [= <-] H. exfalso. now apply (i_owns_reg s I t h b Ho).
    + intros H [= <-]. exfalso. now apply (i_owns_reg s I t h a Ho).
    + apply I.
  - intros u a. rewrite Ep. unfold upd. destruct (Nat.eqb_spec u t); [apply C3|apply I].
  - intros u j H. rewrite Op. apply Po in H as (H & _). now apply (i_owns s I u).
  - intros u j a H. rewrite Er, nget_nset. apply Po in H as (H & N). destruct (Nat.eqb id a); [|now apply (i_owns_reg s I u)].
    intros [= <-]. now apply N, (i_owns_one s I u t h).
  - intros u v j H1 H2. apply Po in H1 as (H1 & _). apply Po in H2 as (H2 & _). exact (i_owns_one s I u v j H1 H2).
  - intros u a. rewrite Ep. unfold upd. destruct (Nat.eqb_spec u t) as [->|N].
    + intros H. apply C4 in H as (-> & ->). exact Bi.
    + intros H. destruct Hc as [(-> & _)|(-> & _)]; [now apply (i_build s I u)|]. apply nrm_In. split; [now apply (i_build s I u)|].
      intros ->. now apply N, (i_build_one s I u t id).
  - assert (Q : forall u a, building (pcs s' u) = Some a -> building (pcs s u) = Some a).
    { intros u a. rewrite Ep. unfold upd. destruct (Nat.eqb_spec u t) as [->|N]; [|auto]. intros H. apply C4 in H as (-> & _). exact Hb. }
    intros u v a H1 H2. apply Q in H1, H2. exact (i_build_one s I u v a H1 H2).
  - intros a. destruct Hc as [(-> & -> & _)|(-> & -> & _)]; [apply I|]. rewrite nrm_In, nget_nset. intros (H & N).
    destruct (Nat.eqb_spec id a); [congruence|now apply I].
  - intros u a j f. rewrite Ep, Er, nget_nset. unfold upd. destruct (Nat.eqb_spec u t) as [->|N].
    + intros H. apply C5 in H as (-> & ->). now rewrite Nat.eqb_refl.
    + intros H. destruct (Nat.eqb_spec id a) as [<-|]; [|revert H; apply I].
      exfalso. apply N, (i_build_one s I u t id); [now rewrite H|exact Hb].
  - intros a j H. rewrite Er, nget_nset.
    destruct Hc as [(_ & Eb & _)|(_ & Eb & _)]; rewrite Eb in H; [|rewrite nget_nset in H]; destruct (Nat.eqb_spec id a) as [<-|N].
    + congruence.
    + now apply I.
    + injection H as <-. now right.
    + now apply I.
  - intros j. rewrite L1, En. apply I.
  - intros j. rewrite Op, L1, L2. apply I.
  - intros j. rewrite L1, L2. apply I.
  - exact L3.
  - intros u. rewrite El, Ep. unfold upd. destruct (Nat.eqb_spec u t) as [->|]; [|apply I]. rewrite (i_lock s I t). split.
    + intros (f & l & H). rewrite H in Ho. discriminate.
    + intros (f & l & H). now apply C2 in H.
  - intros a j H.
    assert (K : forall a j, ready_dev (log s) a j -> a <> id).
    { intros x y R ->. apply I in R as (R & _). congruence. }
    rewrite Er. destruct Hc as [(_ & Eb & Eg & _)|(_ & Eb & Eg & _)]; rewrite Eb; rewrite Eg in H.
    + rewrite nget_nset. pose proof (K _ _ H). apply I in H as (A & B). destruct (Nat.eqb_spec id a); [congruence|auto].
    + rewrite !nget_nset. apply ready_snoc in H as [[= -> ->]|(H & _)]; [now rewrite Nat.eqb_refl|].
      pose proof (K _ _ H). apply I in H as (A & B). destruct (Nat.eqb_spec id a); [congruence|auto].
Qed.

(** The end of a constructor that was registered before: set_filter has returned or raised. *)
Lemma core_own : forall s s' t id h f b, Core s -> pcs s t = POwn id h f ->
  reg s' = reg s -> (forall j, isopen s' j <-> isopen s j) -> nexth s' = nexth s -> pcs s' = upd (pcs s) t PIdle ->
  lock s' = lock s -> busy s' = nrm id (busy s) ->
  (b = true /\ objs s' = nset (objs s) id h /\ log s' = (log s ++ [EFilt t (Some h) f]) ++ [EReady id h] \/
   b = false /\ objs s' = objs s /\ log s' = (log s ++ [EFilt t (Some h) f]) ++ [EFail t]) -> Core s'.
Proof.
  intros s s' t id h f b I Ht Er Op En Ep El Eb Hc.
  assert (Hb : building (pcs s t) = Some id) by now rewrite Ht.
  assert (Bi : In id (busy s)) by now apply (i_build s I t).
  assert (Ob : nget (objs s) id = None) by now apply I.
  assert (Hr : nget (reg s) id = Some (Some h)) by exact (i_own s I t id h f Ht).
  assert (Oh : isopen s h) by (apply I in Hr as (j & [= <-] & H); exact H).
  assert (Lg : (forall j, In (EOpen j) (log s') <-> In (EOpen j) (log s)) /\ (forall j, In (EClose j) (log s') <-> In (EClose j) (log s)) /\
    well_used (log s')).
  { assert (W : well_used (log s ++ [EFilt t (Some h) f])).
    { apply well_snoc; [apply I|]. exists h. split; [reflexivity|]. now apply I. }
    destruct Hc as [(_ & _ & E)|(_ & _ & E)]; rewrite E; repeat split;
      try (rewrite !in_snoc; intros [[?|?]|?]; [assumption|discriminate|discriminate]); try (rewrite !in_snoc; now left; left);
      apply well_snoc; try exact W; exact Logic.I. }
  destruct Lg as (L1 & L2 & L3).
  assert (Po : forall u j, owns (pcs s' u) = Some j -> owns (pcs s u) = Some j).
  { intros u j. rewrite Ep. unfold upd. destruct (Nat.eqb_spec u t); [discriminate|auto]. }
  assert (Pb : forall u a, building (pcs s' u) = Some a -> building (pcs s u) = Some a /\ u <> t).
  { intros u a. rewrite Ep. unfold upd. destruct (Nat.eqb_spec u t); [discriminate|auto]. }
  assert (Go : forall a j, nget (objs s') a = Some j -> nget (objs s) a = Some j \/ (a = id /\ j = h)).
  { intros a j. destruct Hc as [(_ & -> & _)|(_ & -> & _)]; [|now left]. rewrite nget_nset.
    destruct (Nat.eqb_spec id a) as [<-|]; [|now left]. intros [= ->]. now right. }
  constructor.
  - intros a r. rewrite Er. intros H. apply I in H as (j & -> & H). exists j. now rewrite Op.
  - rewrite Er. apply I.
  - rewrite Er. apply I.
  - intros u a. rewrite Ep. unfold upd. destruct (Nat.eqb_spec u t); [discriminate|apply I].
  - intros u j H. rewrite Op. apply Po in H. now apply (i_owns s I u).
  - intros u j a H. rewrite Er. apply Po in H. now apply (i_owns_reg s I u).
  - intros u v j H1 H2. apply Po in H1, H2. exact (i_owns_one s I u v j H1 H2).
  - intros u a H. apply Pb in H as (H & N). rewrite Eb. apply nrm_In. split; [now apply (i_build s I u)|].
    intros ->. now apply N, (i_build_one s I u t id).
  - intros u v a H1 H2. apply Pb in H1 as (H1 & _). apply Pb in H2 as (H2 & _). exact (i_build_one s I u v a H1 H2).
  - intros a. rewrite Eb, nrm_In. intros (H & N). destruct (nget (objs s') a) as [j|] eqn:E; [|reflexivity].
    apply Go in E as [E|(-> & _)]; [|contradiction]. apply I in H. congruence.
  - intros u a j g. rewrite Ep, Er. unfold upd. destruct (Nat.eqb_spec u t); [discriminate|apply I].
  - intros a j H. rewrite Er. apply Go in H as [H|(-> & ->)]; [now apply I|now right].
  - intros j. rewrite L1, En. apply I.
  - intros j. rewrite Op, L1, L2. apply I.
  - intros j. rewrite L1, L2. apply I.
  - exact L3.
  - intros u. rewrite El, Ep. unfold upd. destruct (Nat.eqb_spec u t) as [->|]; [|apply I]. rewrite (i_lock s I t). split.
    + intros (g & l & H). congruence.
    + intros (g & l & H). discriminate.
  - intros a j H. rewrite Er.
    assert (K : ready_dev (log s) a j -> nget (objs s') a = Some j /\ nget (reg s) a = Some (Some j)).
    { intros R. apply I in R as (A & B). split; [|exact B].
      destruct Hc as [(_ & -> & _)|(_ & -> & _)]; [|exact A]. rewrite nget_nset. destruct (Nat.eqb_spec id a); [congruence|exact A]. }
    destruct Hc as [(_ & Eo & E)|(_ & _ & E)]; rewrite E in H;
      apply ready_snoc in H as [H|(H & _)]; try discriminate;
      try (apply ready_snoc in H as [H|(H & _)]; [discriminate|now apply K]).
    injection H as -> ->. split; [rewrite Eo, nget_nset, Nat.eqb_refl; reflexivity|exact Hr].
Qed.

(** Taking an object off the register. *)
Lemma core_gone : forall s s' t id h, Core s -> pcs s t = PIdle -> nget (objs s) id = Some h -> nget (reg s) id <> None ->
  reg s' = ndel (reg s) id -> opn s' = opn s -> nexth s' = nexth s -> pcs s' = upd (pcs s) t (PClosing h) ->
  lock s' = lock s -> busy s' = busy s -> objs s' = objs s -> log s' = log s ++ [EGone id h] -> Core s'.
Proof.
  intros s s' t id h I Ht Hj Hr Er Eo En Ep El Eb Ej Eg.
  assert (Op : forall j, isopen s' j <-> isopen s j) by (intros; unfold isopen; now rewrite Eo).
  assert (Hr' : nget (reg s) id = Some (Some h)) by (destruct (i_obj s I id h Hj); [contradiction|assumption]).
  assert (Oh : isopen s h) by (apply (i_reg s I) in Hr' as (j & [= <-] & H); exact H).
  assert (Gr : forall a r, nget (reg s') a = Some r -> nget (reg s) a = Some r /\ a <> id).
  { intros a r. rewrite Er, nget_ndel. destruct (Nat.eqb_spec id a); [discriminate|auto]. }
  assert (Po : forall u j, owns (pcs s' u) = Some j -> (owns (pcs s u) = Some j /\ j <> h) \/ (u = t /\ j = h)).
  { intros u j. rewrite Ep. unfold upd. destruct (Nat.eqb_spec u t); [cbn; intros [= <-]; auto|]. intros H. left. split; [exact H|].
    intros ->. now apply (i_owns_reg s I u h id). }
  assert (Pb : forall u a, building (pcs s' u) = Some a -> building (pcs s u) = Some a).
  { intros u a. rewrite Ep. unfold upd. destruct (Nat.eqb_spec u t); [discriminate|auto]. }
  constructor.
  - intros a r H. apply Gr in H as (H & _). apply (i_reg s I) in H as (j & -> & H). exists j. now rewrite Op.
  - rewrite Er. apply ndel_nodup, I.
  - intros a b j H1 H2. apply Gr in H1 as (H1 & _). apply Gr in H2 as (H2 & _). exact (i_inj s I a b j H1 H2).
  - intros u a. rewrite Ep. unfold upd. destruct (Nat.eqb_spec u t); [discriminate|apply (i_null s I)].
  - intros u j H. rewrite Op. apply Po in H as [(H & _)|(_ & ->)]; [now apply (i_owns s I u)|exact Oh].
  - intros u j a H Hx. apply Gr in Hx as (Hx & N). apply Po in H as [(H & _)|(_ & ->)]; [now apply (i_owns_reg s I u j a)|].
    apply N. exact (i_inj s I a id h Hx Hr').
  - intros u v j H1 H2. apply Po in H1 as [(H1 & N1)|(-> & ->)]; apply Po in H2 as [(H2 & N2)|(-> & E2)]; try congruence.
    exact (i_owns_one s I u v j H1 H2).
  - intros u a H. rewrite Eb. apply Pb in H. now apply (i_build s I u).
  - intros u v a H1 H2. apply Pb in H1, H2. exact (i_build_one s I u v a H1 H2).
  - intros a. rewrite Eb, Ej. apply (i_busy s I).
  - intros u a j g. rewrite Ep, Er, nget_ndel. unfold upd. destruct (Nat.eqb_spec u t); [discriminate|]. intros H.
    destruct (Nat.eqb_spec id a) as [<-|]; [|revert H; apply (i_own s I)].
    assert (B : In id (busy s)) by (apply (i_build s I u); now rewrite H). apply (i_busy s I) in B. congruence.
  - intros a j. rewrite Ej, Er, nget_ndel. intros H. destruct (Nat.eqb id a); [now left|]. now apply (i_obj s I).
  - intros j. rewrite Eg, En, in_snoc. intros [H|?]; [|discriminate]. now apply (i_fresh s I).
  - intros j. rewrite Op, Eg, !in_snoc, (i_log s I j). split.
    + intros (A & B). split; [now left|]. intros [?|?]; [contradiction|discriminate].
    + intros ([A|?] & B); [|discriminate]. split; [exact A|]. intros H. apply B. now left.
  - intros j. rewrite Eg, !in_snoc. intros [H|?]; [|discriminate]. left. now apply (i_closed s I).
  - rewrite Eg. apply well_snoc; [apply (i_used s I)|exact Logic.I].
  - intros u. rewrite El, Ep. unfold upd. destruct (Nat.eqb_spec u t) as [->|]; [|apply (i_lock s I)]. rewrite (i_lock s I t). split.
    + intros (g & l & H). congruence.
    + intros (g & l & H). discriminate.
  - intros a j H. rewrite Ej, Er, nget_ndel. rewrite Eg in H. apply ready_snoc in H as [H|(H & _ & N)]; [discriminate|].
    destruct (Nat.eqb_spec id a) as [<-|]; [now elim (N h)|]. now apply (i_ready s I).
Qed.

(** pcap_close. *)
Lemma core_close : forall s s' t h, Core s -> pcs s t = PClosing h ->
  reg s' = reg s -> opn s' = ndel (opn s) h -> nexth s' = nexth s -> pcs s' = upd (pcs s) t PIdle ->
  lock s' = lock s -> busy s' = busy s -> objs s' = objs s -> log s' = log s ++ [EClose h] -> Core s'.
Proof.
  intros s s' t h I Ht Er Eo En Ep El Eb Ej Eg.
  assert (Ho : owns (pcs s t) = Some h) by now rewrite Ht.
  assert (Oh : isopen s h) by now apply (i_owns s I t).
  assert (Op : forall j, isopen s' j <-> isopen s j /\ j <> h).
  { intros j. unfold isopen. rewrite Eo, nget_ndel. destruct (Nat.eqb_spec h j) as [<-|]; split; try tauto; auto. }
  assert (Po : forall u j, owns (pcs s' u) = Some j -> owns (pcs s u) = Some j /\ j <> h).
  { intros u j. rewrite Ep. unfold upd. destruct (Nat.eqb_spec u t); [discriminate|]. intros H. split; [exact H|].
    intros ->. now apply n, (i_owns_one s I u t h). }
  assert (Pb : forall u a, building (pcs s' u) = Some a -> building (pcs s u) = Some a).
  { intros u a. rewrite Ep. unfold upd. destruct (Nat.eqb_spec u t); [discriminate|auto]. }
  constructor.
  - intros a r. rewrite Er. intros H. pose proof H as H'. apply (i_reg s I) in H as (j & -> & H). exists j. rewrite Op. repeat split; auto.
    intros ->. now apply (i_owns_reg s I t h a).
  - rewrite Er. apply (i_keys s I).
  - rewrite Er. apply (i_inj s I).
  - intros u a. rewrite Ep. unfold upd. destruct (Nat.eqb_spec u t); [discriminate|apply (i_null s I)].
  - intros u j H. rewrite Op. apply Po in H as (H & N). split; [now apply (i_owns s I u)|exact N].
  - intros u j a H. rewrite Er. apply Po in H as (H & _). now apply (i_owns_reg s I u).
  - intros u v j H1 H2. apply Po in H1 as (H1 & _). apply Po in H2 as (H2 & _). exact (i_owns_one s I u v j H1 H2).
  - intros u a H. rewrite Eb. apply Pb in H. now apply (i_build s I u).
  - intros u v a H1 H2. apply Pb in H1, H2. exact (i_build_one s I u v a H1 H2).
  - intros a. rewrite Eb, Ej. apply (i_busy s I).
  - intros u a j g. rewrite Ep, Er. unfold upd. destruct (Nat.eqb_spec u t); [discriminate|apply (i_own s I)].
  - intros a j. rewrite Ej, Er. apply (i_obj s I).
  - intros j. rewrite Eg, En, in_snoc. intros [H|?]; [|discriminate]. now apply (i_fresh s I).
  - intros j. rewrite Op, Eg, !in_snoc, (i_log s I j). split.
    + intros ((A & B) & C). split; [now left|]. intros [?|[= ->]]; contradiction.
    + intros ([A|?] & B); [|discriminate]. repeat split; [exact A| |].
      * intros H. apply B. now left.
      * intros ->. apply B. now right.
  - intros j. rewrite Eg, !in_snoc. intros [H|[= ->]]; left; [now apply (i_closed s I)|]. now apply (i_log s I).
  - rewrite Eg. apply well_snoc; [apply (i_used s I)|]. now apply (i_log s I).
  - intros u. rewrite El, Ep. unfold upd. destruct (Nat.eqb_spec u t) as [->|]; [|apply (i_lock s I)]. rewrite (i_lock s I t). split.
    + intros (g & l & H). congruence.
    + intros (g & l & H). discriminate.
  - intros a j H. rewrite Ej, Er. rewrite Eg in H. apply ready_snoc in H as [H|(H & _)]; [discriminate|]. now apply (i_ready s I).
Qed.

(** An object goes away. *)
Lemma core_drop : forall s s' id, Core s ->
  reg s' = reg s -> opn s' = opn s -> nexth s' = nexth s -> pcs s' = pcs s ->
  lock s' = lock s -> busy s' = busy s -> objs s' = ndel (objs s) id -> log s' = log s ++ [EDrop id] -> Core s'.
Proof.
  intros s s' id I Er Eo En Ep El Eb Ej Eg.
  assert (Op : forall j, isopen s' j <-> isopen s j) by (intros; unfold isopen; now rewrite Eo).
  assert (Gj : forall a j, nget (objs s') a = Some j -> nget (objs s) a = Some j).
  { intros a j. rewrite Ej, nget_ndel. destruct (Nat.eqb id a); [discriminate|auto]. }
  constructor; rewrite ?Er, ?En, ?Ep, ?El, ?Eb; try apply I.
  - intros a r H. apply (i_reg s I) in H as (j & -> & H). exists j. now rewrite Op.
  - intros u j H. rewrite Op. now apply (i_owns s I u).
  - intros a H. rewrite Ej, nget_ndel. destruct (Nat.eqb id a); [reflexivity|]. now apply (i_busy s I).
  - intros a j H. apply Gj in H. now apply (i_obj s I).
  - intros j. rewrite Eg, in_snoc. intros [H|?]; [|discriminate]. now apply (i_fresh s I).
  - intros j. rewrite Op, Eg, !in_snoc, (i_log s I j). split.
    + intros (A & B). split; [now left|]. intros [?|?]; [contradiction|discriminate].
    + intros ([A|?] & B); [|discriminate]. split; [exact A|]. intros H. apply B. now left.
  - intros j. rewrite Eg, !in_snoc. intros [H|?]; [|discriminate]. left. now apply (i_closed s I).
  - rewrite Eg. apply well_snoc; [apply (i_used s I)|exact Logic.I].
  - intros a j H. rewrite Ej, nget_ndel. rewrite Eg in H. apply ready_snoc in H as [H|(H & N & _)]; [discriminate|].
    destruct (Nat.eqb_spec id a) as [<-|]; [now elim N|]. now apply (i_ready s I).
Qed.

(** Setting a filter from the loop, or failing to. *)
Lemma log_filt : forall s t r f, Core s -> (exists h, r = Some h /\ isopen s h) ->
  (forall h, In (EOpen h) (log s ++ [EFilt t r f]) <-> In (EOpen h) (log s)) /\
  (forall h, In (EClose h) (log s ++ [EFilt t r f]) <-> In (EClose h) (log s)) /\
  well_used (log s ++ [EFilt t r f]) /\
  (forall id h, ready_dev (log s ++ [EFilt t r f]) id h -> ready_dev (log s) id h).
Proof.
  intros s t r f I (h & -> & O). repeat split.
  - rewrite in_snoc. intros [?|?]; [assumption|discriminate].
  - rewrite in_snoc. now left.
  - rewrite in_snoc. intros [?|?]; [assumption|discriminate].
  - rewrite in_snoc. now left.
  - apply well_snoc; [apply (i_used s I)|]. exists h. split; [reflexivity|]. now apply (i_log s I).
  - intros a j H. apply ready_snoc in H as [?|(H & _)]; [discriminate|exact H].
Qed.

Section Step.
Variable fok : str -> Z -> bool.

Lemma upd_same : forall p t c, upd p t c t = c.
Proof. intros. unfold upd. now rewrite Nat.eqb_refl. Qed.
Lemma upd_other : forall p t c u, u <> t -> upd p t c u = p u.
Proof. intros. unfold upd. destruct (Nat.eqb_spec u t); [contradiction|reflexivity]. Qed.

Ltac plainly s e := destruct (log_plain s e ltac:(assumption) eq_refl) as (L1 & L2 & L3 & L4).

(** A thread that was idle stays so, and something plain is noted. *)
Lemma core_note : forall s t e, Core s -> pcs s t = PIdle -> plain e = true -> Core (setpc s t PIdle [e]).
Proof.
  intros s t e I Ht P. destruct (log_plain s e I P) as (L1 & L2 & L3 & L4).
  apply (core_same s); cbn; auto; try reflexivity.
  - intros u. unfold upd. destruct (Nat.eqb_spec u t) as [->|]; [rewrite Ht|]; auto.
  - intros u id. unfold upd. destruct (Nat.eqb u t); [discriminate|apply (i_null s I)].
  - intros u id h f. unfold upd. destruct (Nat.eqb u t); [discriminate|auto].
  - intros u. unfold upd. rewrite (i_lock s I u). destruct (Nat.eqb_spec u t) as [->|]; [|reflexivity]. now rewrite Ht.
Qed.

Lemma in_reg : forall s r, Core s -> In r (map snd (reg s)) -> exists h id, r = Some h /\ isopen s h /\ nget (reg s) id = Some (Some h).
Proof.
  intros s r I H. apply in_map_iff in H as ((id & r') & E & H). cbn in E. subst.
  apply (in_nget _ _ _ (i_keys s I)) in H. destruct (i_reg s I _ _ H) as (h & -> & O). exists h, id. auto.
Qed.

Definition AllI (s : st) : Prop := forall t f todo, pcs s t = PAll f todo -> exists l1 l2 dn,
  log s = l1 ++ EAll t f :: l2 /\ quiet t l2 /\ map snd (reg s) = dn ++ todo /\ set_by t l2 = dn /\
  (forall r g, In (EFilt t r g) l2 -> g = f) /\
  (forall h, In (Some h) dn -> only_by t h l2 -> filter_on s h = Some f).

Lemma core_step : forall s a s', Core s -> AllI s -> (forall t id, a <> ACreate t id CNull) -> step fok s a = Some s' -> Core s'.
Proof.
  intros s a s' I A Na H. destruct a; cbn [step] in H.
  - destruct (pcs s t) eqn:Ht; try discriminate. destruct (live s id) eqn:Lv; [discriminate|]. destruct r; injection H as <-.
    + now apply core_note.
    + match goal with |- Core (mkSt ?r ?k ?o ?n ?j ?b ?p _) =>
        assert (C : Core (mkSt r k o n j b p (log s ++ [EOpen (nexth s)])))
      end.
      { apply (core_open s _ (mkH true 0 None) PIdle t id I); cbn; auto. }
      match type of C with Core ?s1 => destruct (log_plain s1 (EFail t) C eq_refl) as (L1 & L2 & L3 & L4) end.
      cbn [log] in *. rewrite <- !app_assoc in *. cbn [app] in *.
      eapply core_same; [exact C|..]; cbn; auto; try reflexivity; try apply C.
    + apply (core_open s _ (mkH true dlt None) (POpened id (nexth s) fl) t id I); cbn; auto.
      right. repeat split; auto; discriminate.
  - destruct (pcs s t) eqn:Ht; try discriminate. destruct (live s id) eqn:Lv; [discriminate|]. destruct r; [now elim (Na t id)|].
    injection H as <-.
    apply (core_open s _ (mkH false dlt None) (PCreated id (Some (nexth s))) t id I); cbn; auto.
    right. repeat split; auto; discriminate.
  - destruct (lock s) eqn:El; [discriminate|]. destruct (pcs s t) as [|id h [f|]|id [h|]| | |] eqn:Ht; try discriminate.
    + injection H as <-. eapply (core_register s _ t id h (POwn id h f) I); cbn; auto; try (rewrite Ht; reflexivity).
      left. repeat split; eauto.
    + injection H as <-. eapply (core_register s _ t id h PIdle I); cbn; auto; try (rewrite Ht; reflexivity).
    + injection H as <-. eapply (core_register s _ t id h PIdle I); cbn; auto; try (rewrite Ht; reflexivity).
    + now elim (i_null s I t id).
  - destruct (pcs s t) as [| | |id h f| |] eqn:Ht; try discriminate. destruct (setf fok (opn s) (Some h) f) as [o|] eqn:Es; injection H as <-.
    + apply (core_own s _ t id h f true I Ht); cbn; auto.
      * intros j. unfold isopen. cbn. eapply setf_open; eassumption.
      * left. rewrite <- app_assoc. auto.
    + apply (core_own s _ t id h f false I Ht); cbn; auto; try reflexivity. right. rewrite <- app_assoc. auto.
  - destruct (lock s) eqn:El; [discriminate|]. destruct (pcs s t) eqn:Ht; try discriminate.
    destruct (nget (objs s) id) as [h|] eqn:Ej; [|discriminate]. destruct (nget (reg s) id) as [r|] eqn:Er; injection H as <-.
    + apply (core_gone s _ t id h I Ht Ej); cbn; auto. congruence.
    + now apply core_note.
  - destruct (pcs s t) as [| | | |h|] eqn:Ht; try discriminate. injection H as <-.
    apply (core_close s _ t h I Ht); cbn; auto.
  - destruct (lock s) eqn:El; [discriminate|]. destruct (pcs s t) eqn:Ht; try discriminate. injection H as <-.
    plainly s (EAll t f). apply (core_same s); cbn; auto; try reflexivity.
    + intros u. unfold upd. destruct (Nat.eqb_spec u t) as [->|]; [rewrite Ht|]; auto.
    + intros u id. unfold upd. destruct (Nat.eqb u t); [discriminate|apply (i_null s I)].
    + intros u id h g. unfold upd. destruct (Nat.eqb u t); [discriminate|auto].
    + intros u. unfold upd. destruct (Nat.eqb_spec u t) as [->|N]; [split; eauto|]. rewrite <- (i_lock s I u), El.
      split; congruence.
  - destruct (pcs s t) as [| | | | |f [|r todo]] eqn:Ht; try discriminate.
    + injection H as <-. plainly s (EDone t f true). apply (core_same s); cbn; auto; try reflexivity.
      * intros u. unfold upd. destruct (Nat.eqb_spec u t) as [->|]; [rewrite Ht|]; auto.
      * intros u id. unfold upd. destruct (Nat.eqb u t); [discriminate|apply (i_null s I)].
      * intros u id h g. unfold upd. destruct (Nat.eqb u t); [discriminate|auto].
      * intros u. assert (E : lock s = Some t) by (apply (i_lock s I); eauto). unfold upd.
        destruct (Nat.eqb_spec u t) as [->|N]; [split; [discriminate|intros (? & ? & ?); discriminate]|].
        rewrite <- (i_lock s I u). split; congruence.
    + assert (O : exists h, r = Some h /\ isopen s h).
      { destruct (A t f _ Ht) as (l1 & l2 & dn & _ & _ & E & _).
        destruct (in_reg s r I) as (h & id & -> & Oh & _); [rewrite E; apply in_or_app; right; now left|]. eauto. }
      destruct (log_filt s t r f I O) as (L1 & L2 & L3 & L4).
      destruct (setf fok (opn s) r f) as [o|] eqn:Es; injection H as <-.
      * apply (core_same s); cbn; auto; try reflexivity.
        -- intros j. unfold isopen. cbn. eapply setf_open; eassumption.
        -- intros u. unfold upd. destruct (Nat.eqb_spec u t) as [->|]; [rewrite Ht|]; auto.
        -- intros u id. unfold upd. destruct (Nat.eqb u t); [discriminate|apply (i_null s I)].
        -- intros u id h g. unfold upd. destruct (Nat.eqb u t); [discriminate|auto].
        -- intros u. unfold upd. destruct (Nat.eqb_spec u t) as [->|N]; [|apply (i_lock s I)].
           split; [eauto|]. intros _. apply (i_lock s I). eauto.
      * match goal with |- Core (mkSt ?rr ?k ?oo ?n ?j ?b ?p _) =>
          assert (C : Core (mkSt rr k oo n j b p (log s ++ [EFilt t r f])))
        end.
        { apply (core_same s); cbn; auto; try reflexivity.
          - intros u. unfold upd. destruct (Nat.eqb_spec u t) as [->|]; [rewrite Ht|]; auto.
          - intros u id. unfold upd. destruct (Nat.eqb u t); [discriminate|apply (i_null s I)].
          - intros u id h g. unfold upd. destruct (Nat.eqb u t); [discriminate|auto].
          - intros u. assert (E : lock s = Some t) by (apply (i_lock s I); eauto). unfold upd.
            destruct (Nat.eqb_spec u t) as [->|N]; [split; [discriminate|intros (? & ? & ?); discriminate]|].
            rewrite <- (i_lock s I u). split; congruence. }
        match type of C with Core ?s1 => destruct (log_plain s1 (EDone t f false) C eq_refl) as (M1 & M2 & M3 & M4) end.
        cbn [log] in *. rewrite <- !app_assoc in *. cbn [app] in *.
        eapply core_same; [exact C|..]; cbn; auto; try reflexivity.
        -- apply (i_null _ C).
        -- apply (i_lock _ C).
  - destruct (pcs s t) eqn:Ht; try discriminate. destruct (nget (objs s) id) as [h|] eqn:Ej; [|discriminate]. injection H as <-.
    plainly s (EUser h f).
    assert (O : forall j, nget match setf fok (opn s) (Some h) f with Some o => o | None => opn s end j <> None <-> nget (opn s) j <> None).
    { intros j. destruct (setf fok (opn s) (Some h) f) eqn:Es; [|reflexivity]. eapply setf_open; eassumption. }
    apply (core_same s); cbn; auto; try reflexivity; try apply I.
  - destruct (pcs s t) eqn:Ht; try discriminate. destruct (nget (objs s) id) as [h|] eqn:Ej; [|discriminate]. injection H as <-.
    plainly s (EUse h). apply (core_same s); cbn; auto; try reflexivity; try apply I.
    intros j. unfold isopen. cbn [opn]. destruct (nget (opn s) h) eqn:Eo; [|reflexivity]. rewrite nget_nset.
    destruct (Nat.eqb_spec h j) as [<-|]; [|reflexivity]. rewrite Eo. split; discriminate.
  - destruct (pcs s t) eqn:Ht; try discriminate. destruct (nget (objs s) id) as [h|] eqn:Ej; [|discriminate]. injection H as <-.
    now apply core_note.
  - destruct (nget (objs s) id) as [h|] eqn:Ej; [|discriminate]. injection H as <-.
    apply (core_drop s _ id I); cbn; auto.
Qed.

(** What the loop has done so far is not disturbed by anything else. *)
Lemma quiet_app : forall t a b, quiet t a -> quiet t b -> quiet t (a ++ b).
Proof.
  intros t a b Ha Hb f. split; [|intros ok]; rewrite in_app_iff; intros [H|H];
  [now apply (proj1 (Ha f))|now apply (proj1 (Hb f))|now apply (proj2 (Ha f) ok)|now apply (proj2 (Hb f) ok)].
Qed.
Lemma set_by_app : forall t a b, set_by t (a ++ b) = set_by t a ++ set_by t b.
Proof. intros. unfold set_by. apply flat_map_app. Qed.

Lemma only_app : forall t h a b, only_by t h (a ++ b) -> only_by t h a /\ only_by t h b.
Proof.
  intros t h a b (H1 & H2). repeat split; intros.
  - eapply H1, in_or_app; eauto.
  - intros H. eapply H2, in_or_app; eauto.
  - eapply H1, in_or_app; eauto.
  - intros H. eapply H2, in_or_app; eauto.
Qed.

Lemma in_set_by : forall t r f l, In (EFilt t r f) l -> In r (set_by t l).
Proof.
  intros t r f l H. unfold set_by. apply in_flat_map. exists (EFilt t r f). split; [exact H|]. rewrite Nat.eqb_refl. now left.
Qed.

Lemma all_other : forall s s' es, Core s -> AllI s -> log s' = log s ++ es ->
  (forall u f todo, pcs s' u = PAll f todo ->
     pcs s u = PAll f todo /\ reg s' = reg s /\ quiet u es /\ set_by u es = [] /\
     (forall h id, nget (reg s) id = Some (Some h) -> only_by u h es -> filter_on s' h = filter_on s h)) -> AllI s'.
Proof.
  intros s s' es I A Eg H u f todo Hu. destruct (H u f todo Hu) as (Hs & Er & Q & B & F).
  destruct (A u f todo Hs) as (l1 & l2 & dn & El & Q2 & E & S & G & K).
  exists l1, (l2 ++ es), dn. rewrite Eg, El, Er. repeat split.
  - now rewrite <- app_assoc.
  - apply quiet_app; assumption.
  - apply quiet_app; assumption.
  - exact E.
  - now rewrite set_by_app, S, B, app_nil_r.
  - intros r g Hi. apply in_app_or in Hi as [Hi|Hi]; [now apply (G r)|].
    apply in_set_by in Hi. rewrite B in Hi. destruct Hi.
  - intros h Hi O. apply only_app in O as (O1 & O2). rewrite <- (K h Hi O1).
    destruct (in_reg s (Some h) I) as (j & id & [= <-] & _ & Hr); [rewrite E; apply in_or_app; now left|]. now apply (F h id).
Qed.

Lemma quiet1 : forall t e, match e with EAll u _ => u <> t | EDone u _ _ => u <> t | _ => True end -> quiet t [e].
Proof. intros t e H f. split; [|intros ok]; intros [->|[]]; now apply H. Qed.

Lemma filter_snoc : forall o n k h, nget o h <> None ->
  match nget (o ++ [(n, k)]) h with Some x => h_flt x | None => None end = match nget o h with Some x => h_flt x | None => None end.
Proof. intros o n k h H. rewrite nget_snoc. destruct (nget o h); [reflexivity|contradiction]. Qed.

Lemma reg_open : forall s id h, Core s -> nget (reg s) id = Some (Some h) -> nget (opn s) h <> None.
Proof. intros s id h I H. apply (i_reg s I) in H as (j & [= <-] & O). exact O. Qed.

Lemma all_step : forall s a s', Core s -> AllI s -> (forall t id, a <> ACreate t id CNull) -> step fok s a = Some s' -> AllI s'.
Proof.
  intros s a s' I A Na H.
  assert (LK : forall u f todo, pcs s u = PAll f todo -> lock s = Some u) by (intros; apply (i_lock s I); eauto).
  destruct a; cbn [step] in H.
  - destruct (pcs s t) eqn:Ht; try discriminate. destruct (live s id) eqn:Lv; [discriminate|]. destruct r; injection H as <-.
    + eapply all_other; [exact I|exact A|reflexivity|]. cbn. intros u f todo. unfold upd.
      destruct (Nat.eqb_spec u t); [discriminate|]. intros Hu. repeat split; auto; now apply quiet1.
    + eapply all_other; [exact I|exact A|reflexivity|]. cbn. intros u f todo Hu. repeat split; auto.
      * intros [?|[?|[]]]; discriminate.
      * intros ok [?|[?|[]]]; discriminate.
      * intros h a Hr _. unfold filter_on. cbn. apply filter_snoc. eapply reg_open; eassumption.
    + eapply all_other; [exact I|exact A|reflexivity|]. cbn. intros u f todo. unfold upd.
      destruct (Nat.eqb_spec u t); [discriminate|]. intros Hu. repeat split; auto; try now apply quiet1.
      intros h a Hr _. unfold filter_on. cbn. apply filter_snoc. eapply reg_open; eassumption.
  - destruct (pcs s t) eqn:Ht; try discriminate. destruct (live s id) eqn:Lv; [discriminate|]. destruct r; [now elim (Na t id)|].
    injection H as <-. eapply all_other; [exact I|exact A|reflexivity|]. cbn. intros u f todo. unfold upd.
    destruct (Nat.eqb_spec u t); [discriminate|]. intros Hu. repeat split; auto; try now apply quiet1.
    intros h a Hr _. unfold filter_on. cbn. apply filter_snoc. eapply reg_open; eassumption.
  - destruct (lock s) eqn:El; [discriminate|]. destruct (pcs s t) as [|id h [f|]|id [h|]| | |] eqn:Ht; try discriminate; injection H as <-;
    intros u g todo; cbn; unfold upd; (destruct (Nat.eqb_spec u t); [discriminate|]); intros Hu; apply LK in Hu; congruence.
  - destruct (pcs s t) as [| | |id h f| |] eqn:Ht; try discriminate. destruct (setf fok (opn s) (Some h) f) as [o|] eqn:Es; injection H as <-.
    + eapply all_other; [exact I|exact A|reflexivity|]. cbn. intros u g todo. unfold upd.
      destruct (Nat.eqb_spec u t) as [|Nu]; [discriminate|]. intros Hu. repeat split; auto.
      * intros [?|[?|[]]]; discriminate.
      * intros ok [?|[?|[]]]; discriminate.
      * destruct (Nat.eqb_spec t u); [now elim Nu|reflexivity].
      * intros j a Hr (O & _). unfold filter_on. cbn. apply setf_spec in Es as (h' & k & [= <-] & Ek & _ & _ & ->).
        rewrite nget_nset. destruct (Nat.eqb_spec h j) as [<-|]; [|reflexivity]. elim Nu. symmetry. apply (O t f). now left.
    + eapply all_other; [exact I|exact A|reflexivity|]. cbn. intros u g todo. unfold upd.
      destruct (Nat.eqb_spec u t) as [|Nu]; [discriminate|]. intros Hu. repeat split; auto.
      * intros [?|[?|[]]]; discriminate.
      * intros ok [?|[?|[]]]; discriminate.
      * destruct (Nat.eqb_spec t u); [now elim Nu|reflexivity].
  - destruct (lock s) eqn:El; [discriminate|]. destruct (pcs s t) eqn:Ht; try discriminate.
    destruct (nget (objs s) id) as [h|] eqn:Ej; [|discriminate]. destruct (nget (reg s) id) as [r|] eqn:Er; injection H as <-;
    intros u g todo; cbn; unfold upd; (destruct (Nat.eqb_spec u t); [discriminate|]); intros Hu; apply LK in Hu; congruence.
  - destruct (pcs s t) as [| | | |h|] eqn:Ht; try discriminate. injection H as <-.
    eapply all_other; [exact I|exact A|reflexivity|]. cbn. intros u g todo. unfold upd.
    destruct (Nat.eqb_spec u t) as [|Nu]; [discriminate|]. intros Hu. repeat split; auto; try now apply quiet1.
    intros j a Hr _. unfold filter_on. cbn. rewrite nget_ndel. destruct (Nat.eqb_spec h j) as [<-|]; [|reflexivity].
    elim (i_owns_reg s I t h a); [now rewrite Ht|exact Hr].
  - destruct (lock s) eqn:El; [discriminate|]. destruct (pcs s t) eqn:Ht; try discriminate. injection H as <-.
    intros u g todo. cbn. unfold upd. destruct (Nat.eqb_spec u t) as [->|Nu]; [|intros Hu; apply LK in Hu; congruence].
    intros [= <- <-]. exists (log s), [], []. repeat split; auto; try apply quiet_nil; intros; contradiction.
  - destruct (pcs s t) as [| | | | |f [|r todo]] eqn:Ht; try discriminate.
    + injection H as <-. intros u g l. cbn. unfold upd. destruct (Nat.eqb_spec u t) as [|Nu]; [discriminate|].
      intros Hu. apply LK in Hu. apply LK in Ht. congruence.
    + destruct (setf fok (opn s) r f) as [o|] eqn:Es; injection H as <-.
      * intros u g l. cbn. unfold upd. destruct (Nat.eqb_spec u t) as [->|Nu]; [|intros Hu; apply LK in Hu; apply LK in Ht; congruence].
        intros [= <- <-]. destruct (A t f _ Ht) as (l1 & l2 & dn & El & Q & E & S & G & K).
        exists l1, (l2 ++ [EFilt t r f]), (dn ++ [r]). rewrite El. repeat split.
        -- now rewrite <- app_assoc.
        -- apply quiet_snoc; [exact Q|discriminate|discriminate].
        -- apply quiet_snoc; [exact Q|discriminate|discriminate].
        -- rewrite E. now rewrite <- app_assoc.
        -- rewrite set_by_app, S. cbn. now rewrite Nat.eqb_refl.
        -- intros r' g Hi. apply in_app_or in Hi as [Hi|[Hi|[]]]; [now apply (G r')|]. congruence.
        -- intros h Hi O. apply only_app in O as (O1 & O2). unfold filter_on. cbn [opn].
           apply setf_spec in Es as (h' & k & -> & Ek & _ & _ & ->). rewrite nget_nset.
           destruct (Nat.eqb_spec h' h) as [<-|N]; [reflexivity|]. apply K; [|exact O1].
           apply in_app_or in Hi as [Hi|[Hi|[]]]; [exact Hi|congruence].
      * intros u g l. cbn. unfold upd. destruct (Nat.eqb_spec u t) as [|Nu]; [discriminate|].
        intros Hu. apply LK in Hu. apply LK in Ht. congruence.
  - destruct (pcs s t) eqn:Ht; try discriminate. destruct (nget (objs s) id) as [h|] eqn:Ej; [|discriminate]. injection H as <-.
    eapply all_other; [exact I|exact A|reflexivity|]. cbn [pcs reg]. intros u g todo Hu. repeat split; auto; try now apply quiet1.
    intros j a Hr (_ & O). unfold filter_on. cbn [opn]. unfold setf. destruct (nget (opn s) h) as [k|] eqn:Ek; [|reflexivity].
    destruct (h_act k && fok f (h_dlt k)); [|reflexivity]. rewrite nget_nset.
    destruct (Nat.eqb_spec h j) as [<-|]; [|reflexivity]. elim (O f). now left.
  - destruct (pcs s t) eqn:Ht; try discriminate. destruct (nget (objs s) id) as [h|] eqn:Ej; [|discriminate]. injection H as <-.
    eapply all_other; [exact I|exact A|reflexivity|]. cbn [pcs reg]. intros u g todo Hu. repeat split; auto; try now apply quiet1.
    intros j a Hr _. unfold filter_on. cbn [opn]. destruct (nget (opn s) h) as [k|] eqn:Ek; [|reflexivity]. rewrite nget_nset.
    destruct (Nat.eqb_spec h j) as [<-|]; [|reflexivity]. now rewrite Ek.
  - destruct (pcs s t) eqn:Ht; try discriminate. destruct (nget (objs s) id) as [h|] eqn:Ej; [|discriminate]. injection H as <-.
    eapply all_other; [exact I|exact A|reflexivity|]. cbn. intros u g todo. unfold upd.
    destruct (Nat.eqb_spec u t) as [|Nu]; [discriminate|]. intros Hu. repeat split; auto; now apply quiet1.
  - destruct (nget (objs s) id) as [h|] eqn:Ej; [|discriminate]. injection H as <-.
    eapply all_other; [exact I|exact A|reflexivity|]. cbn. intros u g todo Hu. repeat split; auto; now apply quiet1.
Qed.

(** ** Calls that have ended *)
Definition Past (l : list ev) : Prop := forall t f l1 l2 l3,
  l = l1 ++ EAll t f :: l2 ++ EDone t f true :: l3 -> quiet t l2 ->
  NoDup (set_by t l2) /\ (forall r g, In (EFilt t r g) l2 -> g = f) /\
  forall id h, ready_dev (l1 ++ EAll t f :: l2) id h -> In (Some h) (set_by t l2).

Lemma past_snoc : forall l e, Past l -> (forall t f, e <> EDone t f true) -> Past (l ++ [e]).
Proof.
  intros l e P N t f l1 l2 l3 E Q. rewrite app_comm_cons, app_assoc in E.
  destruct (snoc_split _ _ _ _ _ E) as [(_ & X & _)|(post & -> & E')]; [now elim (N t f)|].
  apply (P t f l1 l2 post); [|exact Q]. now rewrite E', <- app_assoc.
Qed.

Lemma nodup_vals : forall s, Core s -> NoDup (map snd (reg s)).
Proof.
  intros s I. pose proof (i_keys s I) as K. pose proof (i_inj s I) as J. pose proof (i_reg s I) as R. clear I.
  assert (J' : forall a b r, In (a, r) (reg s) -> In (b, r) (reg s) -> a = b).
  { intros a b r Ha Hb. apply (in_nget _ _ _ K) in Ha. apply (in_nget _ _ _ K) in Hb.
    destruct (R _ _ Ha) as (h & -> & _). exact (J a b h Ha Hb). }
  clear J R. induction (reg s) as [|[a r] d IH]; [constructor|]. cbn in *. inversion K as [|x l Hx Hl]; subst. constructor.
  - intros Hi. apply in_map_iff in Hi as ((b & r') & E & Hi). cbn in E. subst.
    assert (a = b) by (apply (J' a b r); auto). subst. apply Hx. apply in_map_iff. now exists (b, r).
  - apply IH; [exact Hl|]. intros b c r' Hb Hc. apply (J' b c r'); auto.
Qed.

Lemma past_step : forall s a s', Core s -> AllI s -> Past (log s) -> (forall t id, a <> ACreate t id CNull) ->
  step fok s a = Some s' -> Past (log s').
Proof.
  intros s a s' I A P Na H.
  destruct a; cbn [step] in H;
  repeat match type of H with
  | match ?x with _ => _ end = Some _ => destruct x eqn:?; try discriminate
  end; injection H as <-; cbn [log setpc]; rewrite ?app_nil_r; auto;
  try (apply past_snoc; [assumption|congruence]);
  try (match goal with |- Past (?l ++ [?a; ?b]) => change (l ++ [a; b]) with (l ++ ([a] ++ [b])) end; rewrite app_assoc;
       apply past_snoc; [apply past_snoc; [assumption|congruence]|congruence]).
  intros u g l1 l2 l3 E Q. rewrite app_comm_cons, app_assoc in E.
  destruct (snoc_split _ _ _ _ _ E) as [(El & [= -> ->] & _)|(post & -> & E')].
  - match goal with Hp : pcs s t = PAll f [] |- _ => destruct (A t f [] Hp) as (m1 & m2 & dn & Em & Q2 & Ed & S & G & _) end.
    rewrite Em in El. apply last_all in El as (-> & _ & ->); [|exact Q|exact Q2].
    rewrite app_nil_r in Ed. rewrite S, <- Ed. repeat split.
    + apply nodup_vals, I.
    + exact G.
    + intros id h Hr. rewrite <- Em in Hr. apply (i_ready s I) in Hr as (_ & Hr). apply nget_in in Hr.
      apply in_map_iff. now exists (id, Some h).
  - apply (P u g l1 l2 post); [|exact Q]. now rewrite E', <- app_assoc.
Qed.

Definition Inv (s : st) : Prop := Core s /\ AllI s /\ Past (log s).

Lemma inv_run : forall l, no_null l -> Inv (run fok l).
Proof.
  intros l. unfold run. induction l as [|a l IH] using rev_ind; intros N.
  - split; [apply core_0|]. split.
    + intros t f todo H. discriminate.
    + intros t f [|x l1] l2 l3 H; discriminate.
  - rewrite fold_left_app. cbn [fold_left]. destruct IH as (I & A & P).
    { intros t id H. apply (N t id), in_or_app. now left. }
    assert (Na : forall t id, a <> ACreate t id CNull).
    { intros t id ->. apply (N t id), in_or_app. right. now left. }
    set (s := fold_left (next fok) l st0) in *. change (Inv (match step fok s a with Some s' => s' | None => s end)).
    destruct (step fok s a) as [s'|] eqn:E; [|exact (conj I (conj A P))].
    split; [exact (core_step _ _ _ I A Na E)|]. split; [exact (all_step _ _ _ I A Na E)|exact (past_step _ _ _ I A P Na E)].
Qed.
(** The statements. *)
Lemma pdev_used : forall l, no_null l -> well_used (log (run fok l)).
Proof. intros l N. apply (inv_run l N). Qed.

Lemma pdev_all : forall l t f l1 l2 l3, no_null l ->
  log (run fok l) = l1 ++ EAll t f :: l2 ++ EDone t f true :: l3 -> quiet t l2 ->
  NoDup (set_by t l2) /\ (forall r g, In (EFilt t r g) l2 -> g = f) /\
  forall id h, ready_dev (l1 ++ EAll t f :: l2) id h -> In (Some h) (set_by t l2).
Proof. intros l t f l1 l2 l3 N. destruct (inv_run l N) as (_ & _ & P). apply P. Qed.

Lemma pdev_filter : forall l t f l1 l2, no_null l ->
  log (run fok l) = l1 ++ EAll t f :: l2 -> quiet t l2 -> forall s', step fok (run fok l) (AEach t) = Some s' ->
  log s' = log (run fok l) ++ [EDone t f true] ->
  forall id h, ready_dev (log s') id h -> only_by t h l2 -> filter_on s' h = Some f.
Proof.
  intros l t f l1 l2 N E Q s' H Eg id h R O. destruct (inv_run l N) as (I & A & P). set (s := run fok l) in *.
  rewrite Eg in R. apply ready_snoc in R as [R|(R & _)]; [discriminate|].
  cbn [step] in H. destruct (pcs s t) as [| | | | |g [|r todo]] eqn:Ht; try discriminate.
  - injection H as <-. destruct (A t g [] Ht) as (m1 & m2 & dn & Em & Q2 & Ed & S & G & K).
    pose proof E as E'. rewrite Em in E'. apply last_all in E' as (_ & -> & ->); [|exact Q2|exact Q].
    unfold filter_on in *. cbn [opn]. apply K; [|exact O]. rewrite app_nil_r in Ed. rewrite <- Ed.
    apply (i_ready s I) in R as (_ & R). apply nget_in in R. apply in_map_iff. now exists (id, Some h).
  - destruct (setf fok (opn s) r g) as [o|]; injection H as <-; cbn [log] in Eg; apply app_inv_head in Eg; discriminate.
Qed.

(** The loop ends with an exception only at a registered device that is not activated or refuses the filter. *)
Lemma pdev_fails : forall l t f s', no_null l -> step fok (run fok l) (AEach t) = Some s' -> In (EDone t f false) (log s') ->
  ~ In (EDone t f false) (log (run fok l)) ->
  exists h k, nget (opn (run fok l)) h = Some k /\ (h_act k = false \/ fok f (h_dlt k) = false) /\
    log s' = log (run fok l) ++ [EFilt t (Some h) f; EDone t f false] /\ lock s' = None.
Proof.
  intros l t f s' N H Hi Hn. destruct (inv_run l N) as (I & A & _). set (s := run fok l) in *.
  cbn [step] in H. destruct (pcs s t) as [| | | | |g [|r todo]] eqn:Ht; try discriminate.
  - injection H as <-. cbn [log] in Hi. apply in_app_or in Hi as [?|[?|[]]]; [contradiction|discriminate].
  - destruct (setf fok (opn s) r g) as [o|] eqn:Es; injection H as <-; cbn [log lock] in *;
    apply in_app_or in Hi as [?|Hi]; try contradiction.
    + destruct Hi as [?|[]]; discriminate.
    + destruct Hi as [?|[[= ->]|[]]]; [discriminate|].
      destruct (A t f _ Ht) as (l1 & l2 & dn & _ & _ & E & _).
      destruct (in_reg s r I) as (h & id & -> & Oh & _); [rewrite E; apply in_or_app; right; now left|].
      unfold isopen in Oh. unfold setf in Es. destruct (nget (opn s) h) as [k|] eqn:Ek; [|contradiction].
      exists h, k. destruct (h_act k); cbn in Es; [destruct (fok f (h_dlt k)); [discriminate|]|]; auto.
Qed.

(** The lock is given back: the holder is never in the way of itself. *)
Lemma pdev_lock : forall l t, no_null l -> lock (run fok l) = Some t ->
  exists n, lock (run fok (l ++ repeat (AEach t) n)) = None.
Proof.
  intros l t N. destruct (inv_run l N) as (I & _ & _). unfold run in *. intros L. setoid_rewrite fold_left_app.
  set (s := fold_left (next fok) l st0) in *. apply (i_lock s I) in L as (f & todo & Ht).
  clear I N. clearbody s. clear l. revert s Ht. induction todo as [|r todo IH]; intros s Ht.
  - exists 1%nat. cbn. unfold next. cbn [step]. rewrite Ht. reflexivity.
  - assert (D : lock (next fok s (AEach t)) = None \/ pcs (next fok s (AEach t)) t = PAll f todo).
    { unfold next. cbn [step]. rewrite Ht. destruct (setf fok (opn s) r f); cbn; [right; apply upd_same|now left]. }
    destruct D as [D|D]; [exists 1%nat; exact D|]. destruct (IH _ D) as (n & Hn). exists (S n). exact Hn.
Qed.

(** Closing a second time. *)
Definition opening (c : pc) : option nat := match c with POpened _ h _ => Some h | PCreated _ r => r | _ => None end.
Definition GoneI (s : st) : Prop := forall id h, In (EGone id h) (log s) ->
  (forall a, nget (reg s) a <> Some (Some h)) /\ (h < nexth s)%nat /\ forall t, opening (pcs s t) <> Some h.

Lemma gone_same : forall s s' es, GoneI s -> (forall a r, nget (reg s') a = Some r -> nget (reg s) a = Some r \/ exists t, opening (pcs s t) = r) ->
  (nexth s <= nexth s')%nat -> (forall t h, opening (pcs s' t) = Some h -> opening (pcs s t) = Some h \/ h = nexth s) ->
  log s' = log s ++ es -> (forall id h, ~ In (EGone id h) es) -> GoneI s'.
Proof.
  intros s s' es G Hr Hn Hp Eg Ne id h Hi. rewrite Eg in Hi. apply in_app_or in Hi as [Hi|Hi]; [|now elim (Ne id h)].
  destruct (G id h Hi) as (G1 & G2 & G3). repeat split.
  - intros a H. apply Hr in H as [H|(t & H)]; [now apply (G1 a)|now apply (G3 t)].
  - lia.
  - intros t H. apply Hp in H as [H| ->]; [now apply (G3 t)|lia].
Qed.

Lemma gone_step : forall s a s', Core s -> GoneI s -> step fok s a = Some s' -> GoneI s'.
Proof.
  intros s a s' I G H. pose proof (i_owns_reg s I) as OR. pose proof (i_obj s I) as OB. pose proof (i_inj s I) as IJ.
  pose proof (i_reg s I) as RG. pose proof (i_log s I) as LG. pose proof (i_fresh s I) as FR. clear I.
  assert (E0 : log s = log s ++ []) by now rewrite app_nil_r.
  destruct a; cbn [step] in H;
  repeat match type of H with
  | match ?x with _ => _ end = Some _ => destruct x eqn:?; try discriminate
  end; injection H as <-;
  try (eapply (gone_same s); [exact G|..]; cbn [reg nexth pcs log setpc];
    [ first [ now left
            | intros ? ?; rewrite nget_nset; destruct (Nat.eqb _ _); [|now left]; intros [= <-]; right;
              match goal with Hp : pcs s ?t = _ |- _ => exists t; rewrite Hp; reflexivity end ]
    | lia
    | intros u j; unfold upd; try (destruct (Nat.eqb_spec u t); [subst; cbn; try congruence; intros [= <-]; now right|]); auto
    | first [reflexivity | exact E0]
    | intros ? ? Hx; cbn in Hx; intuition congruence ]).
  (* taking an object off the register *)
  intros a j Hi. cbn [log] in Hi. cbn [reg nexth pcs]. apply in_app_or in Hi as [Hi|[[= -> ->]|[]]].
  - destruct (G a j Hi) as (G1 & G2 & G3). repeat split; auto.
    + intros b. rewrite nget_ndel. destruct (Nat.eqb id b); [discriminate|apply G1].
    + intros u. unfold upd. destruct (Nat.eqb u t); [discriminate|apply G3].
  - match goal with Ho : nget (objs s) a = Some j, Hq : nget (reg s) a = Some _ |- _ =>
      destruct (OB a j Ho) as [X|X]; [congruence|] end.
    repeat split.
    + intros b. rewrite nget_ndel. destruct (Nat.eqb_spec a b) as [<-|N]; [discriminate|]. intros Y. apply N, (IJ a b j X Y).
    + destruct (RG a _ X) as (k & [= <-] & O). apply FR, LG, O.
    + intros u. unfold upd. destruct (Nat.eqb u t); [discriminate|]. intros Y. apply (OR u j a); [|exact X].
      destruct (pcs s u); cbn in *; congruence.
Qed.

Lemma gone_run : forall l, no_null l -> GoneI (run fok l).
Proof.
  intros l. unfold run. induction l as [|a l IH] using rev_ind; intros N.
  - intros id h [].
  - assert (N' : no_null l) by (intros t id H; apply (N t id), in_or_app; now left).
    rewrite fold_left_app. cbn [fold_left]. pose proof (IH N') as G. destruct (inv_run l N') as (I & _). unfold run in I.
    set (s := fold_left (next fok) l st0) in *. change (GoneI (match step fok s a with Some s' => s' | None => s end)).
    destruct (step fok s a) as [s'|] eqn:E; [|exact G]. exact (gone_step _ _ _ I G E).
Qed.

Lemma pdev_twice : forall l t id h s', no_null l -> In (EGone id h) (log (run fok l)) -> nget (objs (run fok l)) id = Some h ->
  step fok (run fok l) (AClose t id) = Some s' ->
  log s' = log (run fok l) ++ [EKeyErr t id] /\ reg s' = reg (run fok l) /\ opn s' = opn (run fok l).
Proof.
  intros l t id h s' N Hi Hj H. destruct (gone_run l N id h Hi) as (G & _). destruct (inv_run l N) as (I & _).
  set (s := run fok l) in *. destruct (i_obj s I id h Hj) as [E|E]; [|now elim (G id)].
  cbn [step] in H. rewrite Hj, E in H. destruct (lock s); [discriminate|]. destruct (pcs s t); try discriminate.
  injection H as <-. auto.
Qed.

(** A handle nobody refers to stays open. *)
Definition Lost (s : st) (h : nat) : Prop :=
  nget (opn s) h <> None /\ (h < nexth s)%nat /\ (forall id, nget (objs s) id <> Some h) /\
  forall t, owns (pcs s t) <> Some h /\ forall id f, pcs s t <> POwn id h f.

Lemma lost_step : forall s a s' h, Lost s h -> step fok s a = Some s' -> Lost s' h.
Proof.
  intros s a s' h (L1 & L2 & L3 & L4) H.
  assert (SF : forall r f o, setf fok (opn s) r f = Some o -> nget o h <> None).
  { intros r f o E. apply (setf_open _ _ _ _ _ h E). exact L1. }
  assert (SN : forall k, nget (opn s ++ [(nexth s, k)]) h <> None).
  { intros k. rewrite nget_snoc. destruct (nget (opn s) h); [discriminate|contradiction]. }
  assert (P : forall t, owns (pcs s t) <> Some h) by (intros; apply L4).
  assert (Q : forall t id f, pcs s t <> POwn id h f) by (intros; apply L4).
  assert (U : forall t c, owns c <> Some h -> (forall id f, c <> POwn id h f) ->
    forall u, owns (upd (pcs s) t c u) <> Some h /\ forall id f, upd (pcs s) t c u <> POwn id h f).
  { intros t c C1 C2 u. unfold upd. destruct (Nat.eqb u t); auto. }
  assert (J : forall id k x, k <> h -> nget (nset (objs s) id k) x <> Some h).
  { intros id k x Nk. rewrite nget_nset. destruct (Nat.eqb id x); [congruence|apply L3]. }
  destruct a; cbn [step] in H;
  repeat match type of H with
  | match ?x with _ => _ end = Some _ => destruct x eqn:?; try discriminate
  end; injection H as <-; unfold Lost; cbn [opn nexth objs pcs setpc];
  try match goal with Hp : pcs s ?t = POwn _ ?k _ |- _ => assert (k <> h) by (intros ->; exact (Q _ _ _ Hp)) end;
  try match goal with Hp : pcs s ?t = _ |- _ => pose proof (P t) as Pt; rewrite Hp in Pt; cbn [owns] in Pt end;
  repeat split; auto; try lia; try (apply U; cbn [owns]; [try congruence; try (intros [= ->]; lia)|congruence]);
  try (apply J; congruence); try (eapply SF; eassumption).
  all: try (apply U; cbn [owns]; congruence).
  all: try (apply L4).
  all: try (intros [= E]; rewrite <- E in L2; lia).
  - rewrite nget_ndel. destruct (Nat.eqb_spec h0 h); [congruence|exact L1].
  - destruct (nget (opn s) n) as [k|]; [|exact L1]. destruct (h_act k && fok f (h_dlt k)); [|exact L1].
    rewrite nget_nset. destruct (Nat.eqb n h); [discriminate|exact L1].
  - destruct (nget (opn s) n) as [k|]; [|exact L1]. rewrite nget_nset. destruct (Nat.eqb n h); [discriminate|exact L1].
  - intros x. rewrite nget_ndel. destruct (Nat.eqb id x); [discriminate|apply L3].
Qed.

Lemma pdev_lost : forall l l2 h, Lost (run fok l) h -> Lost (run fok (l ++ l2)) h.
Proof.
  intros l l2 h. unfold run. rewrite fold_left_app. generalize (fold_left (next fok) l st0). clear l.
  induction l2 as [|a l2 IH]; intros s L; [exact L|]. cbn [fold_left]. apply IH. unfold next.
  destruct (step fok s a) as [s'|] eqn:E; [|exact L]. exact (lost_step _ _ _ _ L E).
Qed.

Lemma pdev_lost_open : forall l l2 h, no_null l -> lost (run fok l) h -> nget (opn (run fok (l ++ l2))) h <> None.
Proof.
  intros l l2 h N (A & B & C). apply pdev_lost. destruct (inv_run l N) as (I & _). repeat split; auto.
  - apply (i_fresh _ I). apply (i_log _ I). exact A.
  - rewrite C. discriminate.
  - intros. rewrite C. discriminate.
Qed.
End Step.
