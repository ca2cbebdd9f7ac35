(** Proofs about simulated nodes joined by links. *)
From Coq Require Import QArith String Permutation Lqa.
From Verif Require Import Base BaseLemmas LinkModel HeapProofs LinkSpec LinkProofs.

Section Sim.
Context {P : Type} (p0 : P) (plen : P -> res Z) (peq : P -> P -> res bool).
#[local] Notation step := (em_step p0 peq).
#[local] Notation sstep := (sim_step p0 plen peq).
#[local] Notation srun := (sim_run p0 plen peq).

(** ** Replacing a node *)
Lemma up_length : forall u (n : node P) s, (u < length s)%nat -> length (upnode u n s) = length s.
Proof. intros u n s H. unfold upnode. rewrite app_length, firstn_length. cbn [length]. rewrite skipn_length. lia. Qed.
Lemma up_nth : forall u (n : node P) s k, (u < length s)%nat -> nth_error (upnode u n s) k = if Nat.eqb k u then Some n else nth_error s k.
Proof.
  intros u n s k H. unfold upnode. destruct (Nat.eqb_spec k u) as [->|N].
  - rewrite nth_error_app2; rewrite firstn_length_le by lia; [|lia]. rewrite Nat.sub_diag. reflexivity.
  - destruct (Nat.lt_ge_cases k u) as [L|L].
    + rewrite nth_error_app1 by (rewrite firstn_length_le; lia). rewrite <- (firstn_skipn u s) at 2.
      rewrite nth_error_app1 by (rewrite firstn_length_le; lia). reflexivity.
    + rewrite nth_error_app2 by (rewrite firstn_length_le; lia). rewrite firstn_length_le by lia.
      destruct (k - u)%nat as [|m] eqn:E; [lia|]. cbn [nth_error].
      rewrite <- (firstn_skipn (S u) s) at 2. rewrite nth_error_app2 by (rewrite firstn_length_le; lia).
      rewrite firstn_length_le by lia. f_equal. lia.
Qed.
Lemma nth_lt : forall {A} (s : list A) u n, nth_error s u = Some n -> (u < length s)%nat.
Proof. intros. apply nth_error_Some. congruence. Qed.
Lemma cut_at : forall (s : sim P) u n, nth_error s u = Some n -> s = firstn u s ++ n :: skipn (S u) s.
Proof.
  intros s u n E. destruct (nth_error_split _ _ E) as (a & b & -> & <-).
  rewrite firstn_app, Nat.sub_diag, firstn_all2 by lia. cbn [firstn]. rewrite app_nil_r. f_equal.
  rewrite skipn_app. rewrite skipn_all2 by lia. replace (S (length a) - length a)%nat with 1%nat by lia. reflexivity.
Qed.

(** ** The links that sim_new lays *)
Lemma pget_pset : forall l k v k', pget (pset l k v) k' = if String.eqb k k' then Some v else pget l k'.
Proof.
  induction l as [|[a b] l IH]; intros k v k'; cbn [pset pget]; [reflexivity|].
  destruct (String.eqb_spec a k) as [->|N]; cbn [pget].
  - destruct (String.eqb_spec k k'); reflexivity.
  - rewrite IH. destruct (String.eqb_spec a k') as [->|N']; [|reflexivity]. destruct (String.eqb_spec k k'); congruence.
Qed.
Definition pipes_at (s : sim P) (e : nat * string) : option pipe := match nth_error s (fst e) with Some n => pget (nd_pipes n) (snd e) | None => None end.
Lemma same_end_spec : forall a b, reflect (a = b) (same_end a b).
Proof.
  intros [a1 a2] [b1 b2]. unfold same_end. cbn [fst snd]. destruct (Nat.eqb_spec a1 b1); destruct (String.eqb_spec a2 b2); constructor; congruence.
Qed.
Lemma add_pipe_at : forall u dev g (s : sim P) e, (u < length s)%nat -> pipes_at (add_pipe u dev g s) e = if same_end e (u, dev) then Some g else pipes_at s e.
Proof.
  intros u dev g s e H. unfold add_pipe. destruct (nth_error s u) as [n|] eqn:E; [|apply nth_error_None in E; lia].
  unfold pipes_at. rewrite up_nth by exact H. unfold same_end. cbn [fst snd]. destruct (Nat.eqb_spec (fst e) u) as [->|N]; cbn [andb].
  - cbn [nd_pipes]. rewrite pget_pset, E, String.eqb_sym. reflexivity.
  - reflexivity.
Qed.
Lemma add_pipe_rest : forall u dev g (s : sim P), length (add_pipe u dev g s) = length s /\
  forall k n, nth_error (add_pipe u dev g s) k = Some n -> exists n', nth_error s k = Some n' /\ nd_em n = nd_em n' /\ nd_queue n = nd_queue n'.
Proof.
  intros u dev g s. unfold add_pipe. destruct (nth_error s u) as [n|] eqn:E; [|split; [reflexivity|intros k n H; exists n; auto]].
  apply nth_lt in E as L. split; [apply up_length; exact L|]. intros k m. rewrite up_nth by exact L.
  destruct (Nat.eqb_spec k u) as [->|N]; intros H; [inversion H; subst; exists n; auto|exists m; auto].
Qed.
Definition pipe_of (x : nat * string * Z * Q) : pipe := let '(w, wd, c, d) := x in mkPipe w d c wd.
Lemma far_app : forall a b e, far (a ++ b) e = match far a e with Some x => Some x | None => far b e end.
Proof.
  induction a as [|l a IH]; intros b e; cbn [far app]; [reflexivity|].
  destruct (same_end e (ln_u l, ln_ud l)); [reflexivity|]. destruct (same_end e (ln_v l, ln_vd l)); [reflexivity|]. apply IH.
Qed.
Lemma far_none : forall ls e, ~ In e (ends ls) -> far ls e = None.
Proof.
  induction ls as [|l ls IH]; intros e H; cbn [far]; [reflexivity|]. cbn [ends flat_map] in H. fold (ends ls) in H. cbn [app] in H.
  destruct (same_end_spec e (ln_u l, ln_ud l)) as [->|]; [exfalso; apply H; left; reflexivity|].
  destruct (same_end_spec e (ln_v l, ln_vd l)) as [->|]; [exfalso; apply H; right; left; reflexivity|]. apply IH. intros K. apply H. right; right; exact K.
Qed.
Lemma ends_app : forall a b, ends (a ++ b) = ends a ++ ends b.
Proof. intros. unfold ends. apply flat_map_app. Qed.
Lemma NoDup_app_l : forall {A} (a b : list A), NoDup (a ++ b) -> NoDup a.
Proof. intros A a. induction a as [|x a IH]; intros b H; [constructor|]. inversion H; subst. constructor; [intros K; apply H2; apply in_or_app; auto|eapply IH; eauto]. Qed.
Lemma NoDup_app_out : forall {A} (a b : list A) x, NoDup (a ++ b) -> In x b -> ~ In x a.
Proof.
  intros A a. induction a as [|y a IH]; intros b x H Hb; [intros []|]. inversion H; subst. intros [->|K]; [|exact (IH _ _ H3 Hb K)].
  apply H2. apply in_or_app. auto.
Qed.
Lemma NoDup_app_r : forall {A} (a b : list A), NoDup (a ++ b) -> NoDup b.
Proof. intros A a. induction a as [|x a IH]; intros b H; [exact H|]. inversion H; subst. apply IH; assumption. Qed.
Lemma new_spec : forall n ls, NoDup (ends ls) -> nodes_below n ls -> length (@sim_new P n ls) = n /\
  (forall e, pipes_at (@sim_new P n ls) e = option_map pipe_of (far ls e)) /\
  (forall u m, nth_error (@sim_new P n ls) u = Some m -> nd_em m = em_new /\ nd_queue m = []).
Proof.
  intros n ls. induction ls as [|l ls IH] using rev_ind; intros Nd Nb.
  - unfold sim_new. cbn [fold_left]. split; [apply repeat_length|]. split.
    + intros e. unfold pipes_at. destruct (nth_error (repeat (@mkNode P [] em_new []) n) (fst e)) as [m|] eqn:E; [|reflexivity].
      apply nth_error_In, repeat_spec in E. subst. reflexivity.
    + intros u m E. apply nth_error_In, repeat_spec in E. subst. auto.
  - rewrite ends_app in Nd. pose proof (NoDup_app_l _ _ Nd) as Nd1.
    destruct (IH Nd1) as (L & Pp & Q). { intros e He. apply Nb. rewrite ends_app. apply in_or_app. auto. }
    unfold sim_new in *. rewrite fold_left_app. cbn [fold_left]. set (s := fold_left add_link ls (repeat (@mkNode P [] em_new []) n)) in *.
    assert (Hu : (ln_u l < length s)%nat) by (rewrite L; apply (Nb (ln_u l, ln_ud l)); rewrite ends_app; apply in_or_app; right; left; reflexivity).
    assert (Hv : (ln_v l < length s)%nat) by (rewrite L; apply (Nb (ln_v l, ln_vd l)); rewrite ends_app; apply in_or_app; right; right; left; reflexivity).
    unfold add_link. set (s1 := add_pipe (ln_u l) (ln_ud l) (mkPipe (ln_v l) (ln_delay l) (ln_cap l) (ln_vd l)) s).
    assert (L1 : length s1 = length s) by (apply add_pipe_rest).
    split; [etransitivity; [apply add_pipe_rest|]; lia|]. split.
    + intros e. rewrite add_pipe_at by lia. unfold s1. rewrite add_pipe_at by exact Hu. rewrite Pp, far_app. cbn [far].
      destruct (same_end_spec e (ln_v l, ln_vd l)) as [Ev|Nv]; destruct (same_end_spec e (ln_u l, ln_ud l)) as [Eu|Nu].
      * exfalso. assert (Hd : ln_u l = ln_v l /\ ln_ud l = ln_vd l) by (rewrite Ev in Eu; inversion Eu; auto). destruct Hd as [E1 E2].
        assert (N2 : NoDup (ends [l])) by (apply (NoDup_app_r _ _ Nd)).
        cbn in N2. rewrite E1, E2 in N2. apply NoDup_cons_iff in N2. apply (proj1 N2). left; reflexivity.
      * rewrite far_none; [reflexivity|]. apply (NoDup_app_out _ _ _ Nd). rewrite Ev. right; left; reflexivity.
      * rewrite far_none; [reflexivity|]. apply (NoDup_app_out _ _ _ Nd). rewrite Eu. left; reflexivity.
      * destruct (far ls e); reflexivity.
    + intros u m E. apply (proj2 (add_pipe_rest _ _ _ _)) in E. destruct E as (m1 & E & -> & ->).
      apply (proj2 (add_pipe_rest _ _ _ _)) in E. destruct E as (m2 & E & -> & ->). exact (Q _ _ E).
Qed.
(** Both directions of a link, and the wire as a relation. *)
Lemma far_in : forall ls e x, far ls e = Some x -> exists l, In l ls /\
  ((e = (ln_u l, ln_ud l) /\ x = (ln_v l, ln_vd l, ln_cap l, ln_delay l)) \/ (e = (ln_v l, ln_vd l) /\ x = (ln_u l, ln_ud l, ln_cap l, ln_delay l))).
Proof.
  induction ls as [|l ls IH]; intros e x H; cbn [far] in H; [discriminate|].
  destruct (same_end_spec e (ln_u l, ln_ud l)) as [->|]; [inversion H; exists l; split; [left; reflexivity|auto]|].
  destruct (same_end_spec e (ln_v l, ln_vd l)) as [->|]; [inversion H; exists l; split; [left; reflexivity|auto]|].
  destruct (IH _ _ H) as (l' & Hl & K). exists l'. split; [right; exact Hl|exact K].
Qed.
Lemma far_of : forall ls l, NoDup (ends ls) -> In l ls -> far ls (ln_u l, ln_ud l) = Some (ln_v l, ln_vd l, ln_cap l, ln_delay l) /\
  far ls (ln_v l, ln_vd l) = Some (ln_u l, ln_ud l, ln_cap l, ln_delay l).
Proof.
  intros ls l Nd Hl. apply in_split in Hl. destruct Hl as (a & b & ->). rewrite ends_app in Nd.
  assert (Na : far a (ln_u l, ln_ud l) = None) by (apply far_none, (NoDup_app_out _ _ _ Nd); left; reflexivity).
  assert (Nb : far a (ln_v l, ln_vd l) = None) by (apply far_none, (NoDup_app_out _ _ _ Nd); right; left; reflexivity).
  rewrite !far_app, Na, Nb. cbn [far]. destruct (same_end_spec (ln_u l, ln_ud l) (ln_u l, ln_ud l)); [|congruence]. split; [reflexivity|].
  destruct (same_end_spec (ln_v l, ln_vd l) (ln_u l, ln_ud l)) as [E|N].
  - exfalso. inversion E as [[E1 E2]]. assert (N2 : NoDup (ends (l :: b))) by (apply (NoDup_app_r _ _ Nd)).
    cbn in N2. rewrite E1, E2 in N2. apply NoDup_cons_iff in N2. apply (proj1 N2). left; reflexivity.
  - destruct (same_end_spec (ln_v l, ln_vd l) (ln_v l, ln_vd l)); [reflexivity|congruence].
Qed.

(** ** The invariant of a run of the simulation *)
Definition pend (v : nat) (n : node P) : list (string * P) :=
  map (fun x => (it_dev x, it_pkt x)) (filter (fun x => Nat.eqb (it_to x) v) (em_heap (nd_em n) ++ em_in (nd_em n))).
Definition queue_at (v : nat) (s : sim P) : list (string * P) := match nth_error s v with Some n => nd_queue n | None => [] end.
Definition came (ls : list link) (l : list (sact P)) (u : nat) (x : item P) : Prop :=
  exists ud t c d k, In (SSend u ud t (it_pkt x)) l /\ far ls (u, ud) = Some (it_to x, it_dev x, c, d) /\ plen (it_pkt x) = Ok k /\
    it_due x = (t + (inject_Z k / inject_Z c) + d)%Q.
Record sinv (n : nat) (ls : list link) (tr : list (sact P * sres P)) (s : sim P) : Prop := mkSinv {
  w_len : length s = n;
  w_pipes : forall e, pipes_at s e = option_map pipe_of (far ls e);
  w_em : forall u m, nth_error s u = Some m -> exists ps ds, inv p0 ps ds (nd_em m);
  w_came : forall u m x, nth_error s u = Some m -> In x (em_heap (nd_em m) ++ em_in (nd_em m)) -> came ls (map fst tr) u x;
  w_just : forall v dev p, In (dev, p) (queue_at v s) -> justified plen ls v dev p (map fst tr);
  w_all : forall v, (v < n)%nat -> Permutation (bound_for plen ls v (map fst tr)) (received v tr ++ queue_at v s ++ flat_map (pend v) s) }.

Lemma bound_app : forall ls v a b, bound_for plen ls v (a ++ b) = bound_for plen ls v a ++ bound_for plen ls v b.
Proof.
  induction a as [|[u dev t p|u p|u a0|u] a IH]; intros b; cbn [bound_for app]; rewrite ?IH; auto.
  - destruct (far ls (u, dev)) as [[[[w wd] c] d]|]; [|reflexivity]. destruct (plen p); [|reflexivity]. destruct (_ && _); reflexivity.
  - destruct (Nat.eqb u v); reflexivity.
Qed.
Lemma received_app : forall v (a b : list (sact P * sres P)), received v (a ++ b) = received v a ++ received v b.
Proof.
  induction a as [|[x y] a IH]; intros b; cbn [received app]; [reflexivity|]. destruct x; rewrite ?IH; auto. destruct y; rewrite ?IH; auto.
  destruct (Nat.eqb u v); reflexivity.
Qed.
Lemma came_mono : forall ls l a u x, came ls l u x -> came ls (l ++ a) u x.
Proof. intros ls l a u x (ud & t & c & d & k & H & K). exists ud, t, c, d, k. split; [apply in_or_app; auto|exact K]. Qed.
Lemma just_mono : forall ls l a v dev p, justified plen ls v dev p l -> justified plen ls v dev p (l ++ a).
Proof.
  intros ls l a v dev p [[H K]|(u & ud & t & c & d & k & b & H1 & H2 & H3 & H4 & H5)]; [left; split; [exact H|apply in_or_app; auto]|].
  right. exists u, ud, t, c, d, k, b. repeat split; auto; apply in_or_app; auto.
Qed.
Lemma flat_up : forall {B} (f : node P -> list B) u m m' s, nth_error s u = Some m -> exists a b, flat_map f s = a ++ f m ++ b /\ flat_map f (upnode u m' s) = a ++ f m' ++ b.
Proof.
  intros B f u m m' s E. exists (flat_map f (firstn u s)), (flat_map f (skipn (S u) s)). split.
  - rewrite (cut_at s u m E) at 1. rewrite flat_map_app. cbn [flat_map]. reflexivity.
  - unfold upnode. rewrite flat_map_app. cbn [flat_map]. reflexivity.
Qed.

(** Delivering items to queues. *)
Lemma deliver_spec : forall o (s : sim P), (forall x, In x o -> (it_to x < length s)%nat) ->
  let s' := fold_left deliver o s in
  length s' = length s /\ (forall e, pipes_at s' e = pipes_at s e) /\
  (forall u m, nth_error s' u = Some m -> exists m0, nth_error s u = Some m0 /\ nd_em m = nd_em m0) /\
  (forall v, (v < length s)%nat -> queue_at v s' = queue_at v s ++ map (fun x => (it_dev x, it_pkt x)) (filter (fun x => Nat.eqb (it_to x) v) o)) /\
  (forall v, flat_map (pend v) s' = flat_map (pend v) s).
Proof.
  induction o as [|x o IH]; intros s H; cbn [fold_left].
  - split; [reflexivity|]. split; [reflexivity|]. split; [intros u m E; exists m; auto|]. split; [intros; cbn; rewrite app_nil_r; reflexivity|reflexivity].
  - assert (Hx := H x (or_introl eq_refl)). destruct (nth_error s (it_to x)) as [m|] eqn:E; [|apply nth_error_None in E; lia].
    assert (Ed : deliver s x = upnode (it_to x) (mkNode (nd_pipes m) (nd_em m) (nd_queue m ++ [(it_dev x, it_pkt x)])) s) by (unfold deliver; rewrite E; reflexivity).
    assert (Ld : length (deliver s x) = length s) by (rewrite Ed; apply up_length; exact Hx).
    assert (Hn : forall k, nth_error (deliver s x) k = if Nat.eqb k (it_to x) then Some (mkNode (nd_pipes m) (nd_em m) (nd_queue m ++ [(it_dev x, it_pkt x)])) else nth_error s k) by (intros k; rewrite Ed; apply up_nth; exact Hx).
    destruct (IH (deliver s x)) as (I1 & I2 & I3 & I4 & I5). { intros y Hy. rewrite Ld. apply H. right; exact Hy. }
    cbv zeta in *. split; [lia|]. split; [|split; [|split]].
    + intros e. rewrite I2. unfold pipes_at. rewrite Hn. destruct (Nat.eqb_spec (fst e) (it_to x)) as [Ee|]; [rewrite Ee, E; reflexivity|reflexivity].
    + intros u m' Em. destruct (I3 _ _ Em) as (m0 & E0 & Ee). rewrite Hn in E0. destruct (Nat.eqb_spec u (it_to x)) as [->|]; [|exists m0; auto].
      inversion E0; subst. exists m. auto.
    + intros v Hv. rewrite I4 by lia. unfold queue_at. rewrite Hn. cbn [filter].
      rewrite (Nat.eqb_sym v (it_to x)). destruct (Nat.eqb_spec (it_to x) v) as [Ev|]; [|reflexivity].
      rewrite <- Ev, E. cbn [nd_queue map]. rewrite <- app_assoc. reflexivity.
    + intros v. rewrite I5, Ed. destruct (flat_up (pend v) (it_to x) m (mkNode (nd_pipes m) (nd_em m) (nd_queue m ++ [(it_dev x, it_pkt x)])) s E) as (a & b & E1 & E2).
      rewrite E1, E2. reflexivity.
Qed.
Lemma em_conserve : forall ps ds s a s' o, inv p0 ps ds s -> step s a = (s', o) -> Permutation (puts [a] ++ em_heap s ++ em_in s) (o ++ em_heap s' ++ em_in s').
Proof.
  intros ps ds s a s' o I E. pose proof (step_inv p0 peq a _ _ _ _ _ I E) as I'.
  destruct I as [(tk & E1 & P1) _ _]. destruct I' as [(tk' & E2 & P2) _ _].
  apply (Permutation_app_inv_l ds).
  assert (A : Permutation (ps ++ puts [a]) (ds ++ puts [a] ++ em_heap s ++ em_in s)).
  { rewrite E1. eapply Permutation_trans; [apply Permutation_app_tail, Permutation_app_tail; exact P1|].
    rewrite <- !app_assoc. apply Permutation_app_head. rewrite app_assoc. apply Permutation_app_comm. }
  eapply Permutation_trans; [apply Permutation_sym; exact A|]. rewrite E2.
  eapply Permutation_trans; [apply Permutation_app_tail; exact P2|]. rewrite <- !app_assoc. reflexivity.
Qed.
Lemma pend_move : forall (v : nat) a b c (f : item P -> bool), Permutation a (b ++ c) ->
  Permutation (map (fun x => (it_dev x, it_pkt x)) (filter f a)) (map (fun x => (it_dev x, it_pkt x)) (filter f b) ++ map (fun x => (it_dev x, it_pkt x)) (filter f c)).
Proof.
  intros v a b c f H. rewrite <- map_app, <- filter_app. apply Permutation_map.
  clear -H. induction H; cbn [filter]; auto.
  - destruct (f x); auto.
  - destruct (f x), (f y); auto. apply perm_swap.
  - eapply Permutation_trans; eauto.
Qed.

(** A change of the emulator of one node that puts [q] in and delivers [o]. *)
Lemma em_change : forall n ls tr s u m a e' o act r, sinv n ls tr s -> nth_error s u = Some m -> step (nd_em m) a = (e', o) ->
  (forall x, In x (puts [a]) -> came ls (map fst tr ++ [act]) u x) ->
  (forall x, In x o -> exists b, act = SEm u (EPass b) /\ (it_due x <= b)%Q) ->
  (forall v, (v < n)%nat -> bound_for plen ls v [act] = map (fun x => (it_dev x, it_pkt x)) (filter (fun x => Nat.eqb (it_to x) v) (puts [a]))) ->
  (forall v, received v [(act, r)] = []) -> nodes_below n ls ->
  sinv n ls (tr ++ [(act, r)]) (fold_left deliver o (upnode u (mkNode (nd_pipes m) e' (nd_queue m)) s)).
Proof.
  intros n ls tr s u m a e' o act r [Wl Wp We Wc Wj Wa] Eu Es Hp Ho Hb Hr Nb.
  destruct (We _ _ Eu) as (ps & ds & I). pose proof (em_conserve _ _ _ _ _ _ I Es) as C.
  pose proof (step_inv p0 peq a _ _ _ _ _ I Es) as I'.
  apply nth_lt in Eu as Lu. set (m' := mkNode (nd_pipes m) e' (nd_queue m)). set (s1 := upnode u m' s).
  assert (L1 : length s1 = length s) by (apply up_length; exact Lu).
  assert (N1 : forall k, nth_error s1 k = if Nat.eqb k u then Some m' else nth_error s k) by (intros k; apply up_nth; exact Lu).
  assert (Cx : forall x, In x (o ++ em_heap e' ++ em_in e') -> came ls (map fst tr ++ [act]) u x).
  { intros x Hx. apply (Permutation_in _ (Permutation_sym C)) in Hx. apply in_app_or in Hx. destruct Hx as [Hx|Hx]; [apply Hp; exact Hx|].
    apply came_mono. eapply Wc; eauto. }
  assert (To : forall x, In x o -> (it_to x < length s1)%nat).
  { intros x Hx. destruct (Cx x (in_or_app _ _ x (or_introl Hx))) as (ud & t & c & d & k & _ & Hf & _). destruct (far_in _ _ _ Hf) as (l & Hl & K).
    rewrite L1, Wl. assert (In (ln_u l, ln_ud l) (ends ls) /\ In (ln_v l, ln_vd l) (ends ls)) as [H1 H2].
    { apply in_split in Hl. destruct Hl as (q1 & q2 & ->). rewrite ends_app. split; apply in_or_app; right; [left|right; left]; reflexivity. }
    assert (T1 := Nb _ H1). assert (T2 := Nb _ H2). cbn [fst] in T1, T2. destruct K as [[_ K]|[_ K]]; assert (T : it_to x = fst (fst (fst (it_to x, it_dev x, c, d)))) by reflexivity; rewrite K in T; cbn [fst] in T; lia. }
  destruct (deliver_spec o s1 To) as (D1 & D2 & D3 & D4 & D5). cbv zeta in *.
  assert (Mp : map fst (tr ++ [(act, r)]) = map fst tr ++ [act]) by (rewrite map_app; reflexivity).
  assert (Q1 : forall v, queue_at v s1 = queue_at v s) by (intros v; unfold queue_at; rewrite N1; destruct (Nat.eqb_spec v u) as [->|]; [rewrite Eu|]; reflexivity).
  constructor; rewrite ?Mp.
  - lia.
  - intros e. rewrite D2, <- Wp. unfold pipes_at. rewrite N1. destruct (Nat.eqb_spec (fst e) u) as [->|]; [rewrite Eu|]; reflexivity.
  - intros w q Ew. destruct (D3 _ _ Ew) as (q0 & E0 & ->). rewrite N1 in E0. destruct (Nat.eqb_spec w u) as [->|]; [inversion E0; subst; eexists; eexists; exact I'|eapply We; eauto].
  - intros w q x Ew Hx. destruct (D3 _ _ Ew) as (q0 & E0 & Ee). rewrite Ee in Hx. rewrite N1 in E0.
    destruct (Nat.eqb_spec w u) as [->|]; [inversion E0; subst; apply Cx; apply in_or_app; right; exact Hx|apply came_mono; eapply Wc; eauto].
  - intros v dev p Hq. destruct (Nat.lt_ge_cases v (length s1)) as [Lv|Lv].
    + rewrite D4, Q1 in Hq by exact Lv. apply in_app_or in Hq. destruct Hq as [Hq|Hq]; [apply just_mono, Wj; exact Hq|].
      apply in_map_iff in Hq. destruct Hq as (x & Ex & Hx). inversion Ex; subst. apply filter_In in Hx. destruct Hx as [Hx Et].
      apply Nat.eqb_eq in Et. subst v. destruct (Cx x (in_or_app _ _ x (or_introl Hx))) as (ud & t & c & d & k & K1 & K2 & K3 & K4).
      destruct (Ho _ Hx) as (b & Ea & Lb). right. exists u, ud, t, c, d, k, b. split; [exact K1|]. split; [exact K2|]. split; [exact K3|]. split; [apply in_or_app; right; left; exact Ea|].
      rewrite <- K4. exact Lb.
    + exfalso. unfold queue_at in Hq. replace (nth_error (fold_left deliver o s1) v) with (@None (node P)) in Hq by (symmetry; apply nth_error_None; lia). contradiction.
  - intros v Hv. rewrite bound_app, received_app, Hr, app_nil_r, Hb, D4, Q1, D5 by lia.
    destruct (flat_up (pend v) u m m' s Eu) as (A & B & E1 & E2). fold s1 in E2. rewrite E2.
    pose proof (pend_move v _ _ _ (fun x => Nat.eqb (it_to x) v) C) as C1.
    rewrite filter_app, map_app in C1. change (map _ (filter _ (em_heap (nd_em m) ++ em_in (nd_em m)))) with (pend v m) in C1.
    change (map _ (filter _ (em_heap e' ++ em_in e'))) with (pend v m') in C1.
    specialize (Wa v Hv). rewrite E1 in Wa.
    set (bp := map (fun x => (it_dev x, it_pkt x)) (filter (fun x => Nat.eqb (it_to x) v) (puts [a]))) in *.
    set (bo := map (fun x => (it_dev x, it_pkt x)) (filter (fun x => Nat.eqb (it_to x) v) o)) in *.
    eapply Permutation_trans; [apply Permutation_app_tail; exact Wa|]. rewrite <- !app_assoc. do 2 apply Permutation_app_head.
    apply Permutation_trans with (A ++ (bp ++ pend v m) ++ B).
    + apply Permutation_app_head. rewrite (app_assoc (pend v m)), <- (app_assoc bp). apply Permutation_app_comm.
    + eapply Permutation_trans; [apply Permutation_app_head, Permutation_app_tail; exact C1|].
      rewrite <- app_assoc. apply Permutation_app_swap_app.
Qed.

Lemma step_sinv : forall n ls tr s a, nodes_below n ls -> sinv n ls tr s -> sinv n ls (tr ++ [(a, snd (sstep s a))]) (fst (sstep s a)).
Proof.
  intros n ls tr s a Nb V.
  (* steps that change nothing *)
  assert (Same : forall r, (forall v, (v < n)%nat -> bound_for plen ls v [a] = []) -> (forall v, received v [(a, r)] = []) -> sinv n ls (tr ++ [(a, r)]) s).
  { intros r Hb Hr. destruct V as [Wl Wp We Wc Wj Wa]. constructor; auto; rewrite ?map_app; cbn [map fst].
    - intros u m x Eu Hx. apply came_mono. eapply Wc; eauto.
    - intros v dev p Hq. apply just_mono, Wj, Hq.
    - intros v Hv. rewrite bound_app, Hb, received_app, Hr, !app_nil_r by exact Hv. apply Wa; exact Hv. }
  destruct a as [u dev now p|u p|u ea|u].
  - (* send *)
    cbn [sim_step]. assert (Pp := w_pipes _ _ _ _ V (u, dev)). unfold pipes_at in Pp. cbn [fst snd] in Pp.
    destruct (nth_error s u) as [m|] eqn:Eu; cbn [fst snd].
    + unfold node_send. rewrite Pp. destruct (far ls (u, dev)) as [[[[w wd] c] d]|] eqn:Ef; cbn [option_map pipe_of fst snd].
      * destruct (plen p) as [k|e] eqn:El; cbn [bindr fst snd].
        2:{ apply Same; [|reflexivity]. intros v Hv. cbn [bound_for]. rewrite Ef, El. reflexivity. }
        cbn [pi_cap pi_delay pi_rdev pi_to]. destruct (c =? 0) eqn:Ec; cbn [fst snd].
        { apply Same; [|reflexivity]. intros v Hv. cbn [bound_for]. rewrite Ef, El, Ec, andb_false_r. reflexivity. }
        set (x := mkItem (now + inject_Z k / inject_Z c + d)%Q wd p w).
        apply (em_change n ls tr s u m (EPut x) (fst (step (nd_em m) (EPut x))) [] (SSend u dev now p)); auto.
        -- intros y [<-|[]]. exists dev, now, c, d, k. split; [apply in_or_app; right; left; reflexivity|]. auto.
        -- intros y [].
        -- intros v Hv. cbn [bound_for puts filter]. rewrite Ef, El, Ec. cbn [it_to x]. rewrite andb_true_r. destruct (Nat.eqb w v); reflexivity.
      * apply Same; [|reflexivity]. intros v Hv. cbn [bound_for]. rewrite Ef. reflexivity.
    + apply Same; [|reflexivity]. intros v Hv. cbn [bound_for]. destruct (far ls (u, dev)) as [x|]; [discriminate|reflexivity].
  - (* host packet *)
    cbn [sim_step]. destruct (nth_error s u) as [m|] eqn:Eu; cbn [fst snd].
    2:{ apply Same; [|reflexivity]. intros v Hv. cbn [bound_for]. destruct (Nat.eqb_spec u v) as [->|]; [|reflexivity].
        apply nth_error_None in Eu. rewrite (w_len _ _ _ _ V) in Eu. lia. }
    destruct V as [Wl Wp We Wc Wj Wa]. apply nth_lt in Eu as Lu. set (m' := mkNode (nd_pipes m) (nd_em m) (nd_queue m ++ [("host"%string, p)])).
    assert (N1 : forall k, nth_error (upnode u m' s) k = if Nat.eqb k u then Some m' else nth_error s k) by (intros k; apply up_nth; exact Lu).
    constructor; rewrite ?map_app; cbn [map fst].
    + rewrite up_length; auto.
    + intros e. rewrite <- Wp. unfold pipes_at. rewrite N1. destruct (Nat.eqb_spec (fst e) u) as [->|]; [rewrite Eu|]; reflexivity.
    + intros w q Ew. rewrite N1 in Ew. destruct (Nat.eqb_spec w u) as [->|]; [inversion Ew; subst; apply (We _ _ Eu)|eauto].
    + intros w q x Ew Hx. rewrite N1 in Ew. apply came_mono. destruct (Nat.eqb_spec w u) as [->|]; [inversion Ew; subst; eapply Wc; eauto|eapply Wc; eauto].
    + intros v dev q Hq. unfold queue_at in Hq. rewrite N1 in Hq. destruct (Nat.eqb_spec v u) as [->|N].
      * cbn [nd_queue m'] in Hq. apply in_app_or in Hq. destruct Hq as [Hq|[Hq|[]]].
        -- apply just_mono, Wj. unfold queue_at. rewrite Eu. exact Hq.
        -- inversion Hq; subst. left. split; [reflexivity|]. apply in_or_app; right; left; reflexivity.
      * apply just_mono, Wj. exact Hq.
    + intros v Hv. rewrite bound_app, received_app. cbn [bound_for received]. rewrite app_nil_r.
      destruct (flat_up (pend v) u m m' s Eu) as (A & B & E1 & E2). rewrite E2. change (pend v m') with (pend v m). rewrite <- E1.
      unfold queue_at. rewrite N1. rewrite (Nat.eqb_sym v u). specialize (Wa v Hv). unfold queue_at in Wa.
      destruct (Nat.eqb_spec u v) as [->|N]; [|rewrite app_nil_r; exact Wa].
      rewrite Eu in Wa. cbn [nd_queue m']. eapply Permutation_trans; [apply Permutation_app_tail; exact Wa|].
      rewrite <- !app_assoc. do 2 apply Permutation_app_head. apply Permutation_app_comm.
  - (* link emulator *)
    assert (K : match ea with EPut _ => True | _ => sinv n ls (tr ++ [(SEm u ea, snd (sstep s (SEm u ea)))]) (fst (sstep s (SEm u ea))) end).
    { destruct (nth_error s u) as [m|] eqn:Eu.
      - destruct (step (nd_em m) ea) as [e' o] eqn:Es.
        assert (G : match ea with EPut _ => True | _ => forall r, (forall v, received v [(SEm u ea, r)] = []) -> sinv n ls (tr ++ [(SEm u ea, r)]) (fold_left deliver o (upnode u (mkNode (nd_pipes m) e' (nd_queue m)) s)) end).
        { assert (Go : forall x, In x o -> exists b, ea = EPass b /\ (it_due x <= b)%Q).
          { intros x Hx. destruct (w_em _ _ _ _ V _ _ Eu) as (ps & ds & Iv).
            pose proof (step_not_early p0 peq ps ds (nd_em m) ea (match ea with EPass t => t | _ => 0%Q end) x Iv) as Ne.
            rewrite Es in Ne. cbn [snd] in Ne. specialize (Ne (in_map (fun x => (match ea with EPass t => t | _ => 0%Q end, x)) _ _ Hx)).
            destruct ea as [y| |b|b]; cbn [em_step] in Es.
            - inversion Es; subst. contradiction.
            - inversion Es; subst. contradiction.
            - exists b. auto.
            - exfalso. destruct (em_st (nd_em m)); try (inversion Es; subst; contradiction).
              match type of Es with (if ?c then _ else _) = _ => destruct c end; [inversion Es; subst; contradiction|].
              destruct (em_in (nd_em m)); [inversion Es; subst; contradiction|]. destruct (heappush _ _ _ _); inversion Es; subst; contradiction. }
          assert (Gm : forall r, puts [ea] = [] -> (forall v, received v [(SEm u ea, r)] = []) -> sinv n ls (tr ++ [(SEm u ea, r)]) (fold_left deliver o (upnode u (mkNode (nd_pipes m) e' (nd_queue m)) s))).
          { intros r Hp Hr. apply (em_change n ls tr s u m ea e' o); auto.
            - rewrite Hp. intros x [].
            - intros x Hx. destruct (Go x Hx) as (b & -> & Lb). exists b. auto.
            - intros v Hv. rewrite Hp. reflexivity. }
          destruct ea; [exact I| | |]; intros r Hr; apply Gm; auto. }
        destruct ea; [exact I| | |]; cbn [sim_step]; rewrite Eu, Es; cbn [fst snd]; apply G; reflexivity.
      - destruct ea; [exact I| | |]; cbn [sim_step]; rewrite Eu; cbn [fst snd]; apply Same; reflexivity. }
    destruct ea as [y| | |]; [|exact K..]. cbn [sim_step fst snd]. apply Same; reflexivity.
  - (* receive *)
    cbn [sim_step]. destruct (nth_error s u) as [m|] eqn:Eu; cbn [fst snd]; [|apply Same; reflexivity].
    destruct (nd_queue m) as [|[dev p] q] eqn:Eq; cbn [fst snd]; [apply Same; reflexivity|].
    destruct V as [Wl Wp We Wc Wj Wa]. apply nth_lt in Eu as Lu. set (m' := mkNode (nd_pipes m) (nd_em m) q).
    assert (N1 : forall k, nth_error (upnode u m' s) k = if Nat.eqb k u then Some m' else nth_error s k) by (intros k; apply up_nth; exact Lu).
    constructor; rewrite ?map_app; cbn [map fst].
    + rewrite up_length; auto.
    + intros e. rewrite <- Wp. unfold pipes_at. rewrite N1. destruct (Nat.eqb_spec (fst e) u) as [->|]; [rewrite Eu|]; reflexivity.
    + intros w k Ew. rewrite N1 in Ew. destruct (Nat.eqb_spec w u) as [->|]; [inversion Ew; subst; apply (We _ _ Eu)|eauto].
    + intros w k x Ew Hx. rewrite N1 in Ew. apply came_mono. destruct (Nat.eqb_spec w u) as [->|]; [inversion Ew; subst; eapply Wc; eauto|eapply Wc; eauto].
    + intros v dev' p' Hq. unfold queue_at in Hq. rewrite N1 in Hq. apply just_mono, Wj. unfold queue_at. destruct (Nat.eqb_spec v u) as [->|N].
      * rewrite Eu, Eq. right. exact Hq.
      * exact Hq.
    + intros v Hv. rewrite bound_app, received_app. cbn [bound_for received]. rewrite app_nil_r.
      destruct (flat_up (pend v) u m m' s Eu) as (A & B & E1 & E2). rewrite E2. change (pend v m') with (pend v m). rewrite <- E1.
      unfold queue_at. rewrite N1. rewrite (Nat.eqb_sym v u). specialize (Wa v Hv). unfold queue_at in Wa.
      destruct (Nat.eqb_spec u v) as [->|N]; [|rewrite app_nil_r; exact Wa].
      rewrite Eu, Eq in Wa. cbn [nd_queue m']. rewrite <- app_assoc. exact Wa.
Qed.

Definition trace (s : sim P) (l : list (sact P)) : list (sact P * sres P) := combine l (snd (srun s l)).
Lemma srun_length : forall l s, length (snd (srun s l)) = length l.
Proof. induction l as [|a l IH]; intros s; cbn [sim_run]; [reflexivity|]. destruct (sstep s a) as [s1 r]. specialize (IH s1). destruct (srun s1 l) as [s2 rs]. cbn [snd length] in *. lia. Qed.
Lemma srun_snoc : forall l a s, srun s (l ++ [a]) = (fst (sstep (fst (srun s l)) a), snd (srun s l) ++ [snd (sstep (fst (srun s l)) a)]).
Proof.
  induction l as [|b l IH]; intros a s; cbn [app sim_run].
  - cbn [fst snd]. destruct (sstep s a). reflexivity.
  - destruct (sstep s b) as [s1 r]. specialize (IH a s1). rewrite IH. destruct (srun s1 l) as [s2 rs]. reflexivity.
Qed.
Lemma trace_snoc : forall l a s, trace s (l ++ [a]) = trace s l ++ [(a, snd (sstep (fst (srun s l)) a))].
Proof.
  intros l a s. unfold trace. rewrite srun_snoc. cbn [snd]. pose proof (srun_length l s). revert H. generalize (snd (srun s l)) (snd (sstep (fst (srun s l)) a)).
  induction l as [|b l IH]; intros [|r rs] q H; try discriminate; [reflexivity|]. cbn [app combine]. f_equal. apply IH. cbn in H. lia.
Qed.
Lemma trace_fst : forall l s, map fst (trace s l) = l.
Proof. intros l s. induction l as [|a l IH] using rev_ind; [reflexivity|]. rewrite trace_snoc, map_app, IH. reflexivity. Qed.
Lemma flat_nil : forall {A B} (f : A -> list B) l, (forall x, In x l -> f x = []) -> flat_map f l = [].
Proof. intros A B f l. induction l as [|x l IH]; intros H; [reflexivity|]. cbn [flat_map]. rewrite (H x), IH; [reflexivity|intros; apply H; right; assumption|left; reflexivity]. Qed.
Lemma run_sinv : forall n ls l, NoDup (ends ls) -> nodes_below n ls -> sinv n ls (trace (sim_new n ls) l) (fst (srun (sim_new n ls) l)).
Proof.
  intros n ls l Nd Nb. destruct (new_spec n ls Nd Nb) as (L & Pp & Q). induction l as [|a l IH] using rev_ind.
  - constructor; auto.
    + intros u m E. destruct (Q _ _ E) as [-> _]. exists [], []. apply (run_inv p0 peq []).
    + intros u m x E. destruct (Q _ _ E) as [-> _]. intros [].
    + intros v dev p. unfold queue_at. cbn [sim_run fst]. destruct (nth_error (sim_new n ls) v) as [m|] eqn:E; [|intros []]. destruct (Q _ _ E) as [_ ->]. intros [].
    + intros v Hv. cbn [sim_run fst trace combine map bound_for received app]. unfold queue_at.
      destruct (nth_error (sim_new n ls) v) as [m|] eqn:E; [destruct (Q _ _ E) as [_ ->]|]; cbn [app];
      (rewrite flat_nil; [constructor|]; intros x Hx; apply In_nth_error in Hx; destruct Hx as [k Hk]; destruct (Q _ _ Hk) as [Ee _]; unfold pend; rewrite Ee; reflexivity).
  - rewrite trace_snoc, srun_snoc. cbn [fst]. apply step_sinv; auto.
Qed.

Lemma sim_conserved : forall n ls l v, NoDup (ends ls) -> nodes_below n ls -> (v < n)%nat ->
  exists rest, Permutation (bound_for plen ls v l) (received v (trace (sim_new n ls) l) ++ rest).
Proof.
  intros n ls l v Nd Nb Hv. pose proof (w_all _ _ _ _ (run_sinv n ls l Nd Nb) v Hv) as K. rewrite trace_fst in K. eexists; exact K.
Qed.
Lemma sim_justified : forall n ls l v dev p, NoDup (ends ls) -> nodes_below n ls ->
  snd (sstep (fst (srun (sim_new n ls) l)) (SRecv v)) = SGot dev p -> justified plen ls v dev p l.
Proof.
  intros n ls l v dev p Nd Nb E. pose proof (w_just _ _ _ _ (run_sinv n ls l Nd Nb) v dev p) as K. rewrite trace_fst in K. apply K.
  cbn [sim_step] in E. unfold queue_at. destruct (nth_error (fst (srun (sim_new n ls) l)) v) as [m|]; [|discriminate].
  destruct (nd_queue m) as [|[d q] r]; [discriminate|]. cbn [snd] in E. inversion E; subst. left; reflexivity.
Qed.
End Sim.
