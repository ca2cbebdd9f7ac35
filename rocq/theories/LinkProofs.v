(** Proofs about the link emulator. *)
From Coq Require Import QArith String Permutation Lqa.
From Verif Require Import Base BaseLemmas LinkModel HeapProofs LinkSpec.

Lemma app_split : forall {A} (a b c e : list A) x, a ++ b = c ++ x :: e ->
  (exists r, a = c ++ x :: r /\ e = r ++ b) \/ (exists r, c = a ++ r /\ b = r ++ x :: e).
Proof.
  induction a as [|y a IH]; intros b c e x E; cbn [app] in E.
  - right. exists c. auto.
  - destruct c as [|z c]; cbn [app] in E; inversion E; subst.
    + left. exists a. auto.
    + destruct (IH _ _ _ _ H1) as [(r & -> & ->)|(r & -> & ->)]; [left|right]; exists r; auto.
Qed.

Section Proofs.
Context {P : Type} (p0 : P) (peq : P -> P -> res bool).
#[local] Notation step := (em_step p0 peq).
#[local] Notation run := (em_run p0 peq).
#[local] Notation ilt := (item_lt peq).
#[local] Notation i0 := (item0 p0).
Definition ile (a b : item P) : Prop := (it_due a <= it_due b)%Q.
Lemma ile_refl : forall a, ile a a. Proof. intros a. unfold ile. lra. Qed.
Lemma ile_trans : forall a b c, ile a b -> ile b c -> ile a c. Proof. unfold ile. intros. lra. Qed.
Lemma Qleb_false : forall a b, Qle_bool a b = false -> (b < a)%Q.
Proof. intros a b H. apply Qnot_le_lt. intros L. apply Qle_bool_iff in L. congruence. Qed.
Lemma Qleb_true : forall a b, Qle_bool a b = true -> (a <= b)%Q.
Proof. intros a b H. apply Qle_bool_iff; auto. Qed.
Lemma ilt_true : forall a b, ilt a b = Ok true -> ile a b.
Proof.
  intros a b. unfold item_lt, ile. destruct (Qeq_bool (it_due a) (it_due b)) eqn:E; cbn [negb].
  - intros _. apply Qeq_bool_eq in E. lra.
  - destruct (Qle_bool (it_due b) (it_due a)) eqn:L; cbn [negb]; [discriminate|]. intros _. apply Qleb_false in L. lra.
Qed.
Lemma ilt_false : forall a b, ilt a b = Ok false -> ile b a.
Proof.
  intros a b. unfold item_lt, ile. destruct (Qeq_bool (it_due a) (it_due b)) eqn:E; cbn [negb].
  - intros _. apply Qeq_bool_eq in E. lra.
  - destruct (Qle_bool (it_due b) (it_due a)) eqn:L; cbn [negb]; [|discriminate]. intros _. apply Qleb_true in L. lra.
Qed.
#[local] Notation isheap := (is_heap i0 ile).
#[local] Notation fromlt := (from_lt ilt).

(** ** One pass *)
Lemma expire_spec : forall fuel now h l h' e, (length h < fuel)%nat -> isheap h -> em_expire p0 peq fuel now h = (l, h', e) ->
  Permutation h (l ++ h') /\ (forall x, In x l -> (it_due x <= now)%Q) /\
  (forall u y v, l = u ++ y :: v -> forall z, In z (v ++ h') -> ile y z) /\
  match e with None => isheap h' /\ (forall x, In x h' -> (now < it_due x)%Q) | Some x => fromlt h x end.
Proof.
  induction fuel as [|f IH]; intros now h l h' e Hf Hh E; [lia|]. cbn [em_expire] in E.
  destruct h as [|x h].
  - inversion E; subst. split; [constructor|]. split; [intros ? []|]. split; [intros [|? ?]; discriminate|]. split; [exact Hh|intros ? []].
  - destruct (Qle_bool (it_due x) now) eqn:L.
    + pose proof (heappop_spec i0 ilt ile ile_refl ile_trans ilt_true ilt_false x h Hh) as K.
      destruct (heappop i0 ilt (x :: h)) as [[y h1]|e1].
      * destruct K as (-> & Pm & Hh1). destruct (em_expire p0 peq f now h1) as [[l2 h2] e2] eqn:E2. inversion E; subst.
        assert (Lh : (length h1 < f)%nat) by (rewrite <- (Permutation_length Pm); cbn [length] in Hf; lia).
        destruct (IH _ _ _ _ _ Lh Hh1 E2) as (P2 & D2 & O2 & S2).
        split; [cbn [app]; constructor; eapply Permutation_trans; eauto|].
        split; [intros z [<-|Hz]; [apply Qleb_true; exact L|apply D2; exact Hz]|].
        split; [|destruct e as [x'|]; [|exact S2]; destruct S2 as (a1 & b1 & r1 & Pr & Er); exists a1, b1, (x :: r1); split; [|exact Er];
                 eapply Permutation_trans; [apply perm_skip; eapply Permutation_trans; [exact Pm|exact Pr]|]; eapply Permutation_trans; [apply perm_swap|apply perm_skip, perm_swap]].
        intros u y v Eq z Hz. destruct u as [|w u]; cbn [app] in Eq; inversion Eq; subst.
        -- apply (heap_root_In i0 ilt ile ile_refl ile_trans ilt_true ilt_false y h z Hh). right.
           eapply Permutation_in; [apply Permutation_sym; eapply Permutation_trans; [exact Pm|exact P2]|exact Hz].
        -- eapply O2; eauto.
      * inversion E; subst. split; [reflexivity|]. split; [intros ? []|]. split; [intros [|? ?]; discriminate|]. exact K.
    + inversion E; subst. split; [reflexivity|]. split; [intros ? []|]. split; [intros [|? ?]; discriminate|]. split; [exact Hh|].
      intros z Hz. pose proof (heap_root_In i0 ilt ile ile_refl ile_trans ilt_true ilt_false x h z Hh Hz) as K. unfold ile in K. apply Qleb_false in L. lra.
Qed.

(** ** The invariant of a run, about everything put and everything delivered so far. *)
Definition alive (s : em P) : Prop := match em_st s with EmDead _ => False | _ => True end.
Record inv (ps ds : list (item P)) (s : em P) : Prop := mkInv {
  v_all : exists tk, ps = tk ++ em_in s /\ Permutation tk (ds ++ em_heap s);
  v_heap : alive s -> isheap (em_heap s);
  v_ord : forall u y v, ds = u ++ y :: v -> exists tk rest r, ps = tk ++ r /\ Permutation tk (u ++ y :: rest) /\ forall z, In z rest -> ile y z }.
Lemma step_inv : forall a ps ds s s' o, inv ps ds s -> step s a = (s', o) -> inv (ps ++ puts [a]) (ds ++ o) s'.
Proof.
  intros a ps ds s s' o [(tk & Ep & Pm) Hh Ho] E. destruct a as [x| |now|now]; cbn [em_step puts] in E |- *.
  - inversion E; subst. rewrite app_nil_r. constructor; cbn [em_in em_heap].
    + exists tk. rewrite app_assoc. auto.
    + exact Hh.
    + intros u y v Eq. destruct (Ho _ _ _ Eq) as (t & r & q & E1 & E2 & E3). exists t, r, (q ++ [x]).
      split; [rewrite E1, app_assoc; reflexivity|auto].
  - inversion E; subst. rewrite !app_nil_r. constructor; auto. exists tk; auto.
  - rewrite app_nil_r. destruct (em_st s) eqn:Es; try (inversion E; subst; rewrite app_nil_r; constructor; auto; exists tk; auto).
    destruct (em_stop s); [inversion E; subst; rewrite app_nil_r; constructor; cbn [em_in em_heap]; [exists tk; auto|intros _; apply Hh; unfold alive; rewrite Es; exact I|exact Ho]|].
    destruct (em_expire p0 peq (S (length (em_heap s))) now (em_heap s)) as [[l h] e] eqn:Ex.
    inversion E; subst; clear E.
    assert (Hs : isheap (em_heap s)) by (apply Hh; unfold alive; rewrite Es; exact I).
    destruct (expire_spec _ _ _ _ _ _ (Nat.lt_succ_diag_r _) Hs Ex) as (P1 & D1 & O1 & S1).
    constructor; cbn [em_in em_heap].
    + exists tk. split; [auto|]. rewrite <- app_assoc. eapply Permutation_trans; [exact Pm|]. apply Permutation_app_head. exact P1.
    + unfold alive; cbn [em_st]. destruct e; [intros []|intros _; apply S1].
    + intros u y v Eq. destruct (app_split _ _ _ _ _ Eq) as [(r & E1 & E2)|(r & E1 & E2)].
      * exact (Ho _ _ _ E1).
      * exists tk, ((v ++ h)), (em_in s). split; [reflexivity|]. split.
        -- eapply Permutation_trans; [exact Pm|]. rewrite E1, <- app_assoc. apply Permutation_app_head.
           eapply Permutation_trans; [exact P1|]. rewrite E2, <- app_assoc. reflexivity.
        -- intros z Hz. eapply O1; eauto.
  - rewrite app_nil_r. destruct (em_st s) eqn:Es; try (inversion E; subst; rewrite app_nil_r; constructor; auto; exists tk; auto).
    assert (Hs : isheap (em_heap s)) by (apply Hh; unfold alive; rewrite Es; exact I).
    match type of E with (if ?b then _ else _) = _ => destruct b end.
    + inversion E; subst. rewrite app_nil_r. constructor; cbn [em_in em_heap]; [exists tk; auto|intros []|exact Ho].
    + destruct (em_in s) as [|x q] eqn:Ei.
      * inversion E; subst. rewrite (app_nil_r ds). constructor; cbn [em_in em_heap]; [exists tk; auto|intros _; exact Hs|exact Ho].
      * pose proof (heappush_spec i0 ilt ile ile_refl ile_trans ilt_true ilt_false (em_heap s) x Hs) as K.
        destruct (heappush i0 ilt (em_heap s) x) as [h|e]; inversion E; subst; rewrite app_nil_r; (constructor; cbn [em_in em_heap]; [| |exact Ho]).
        -- destruct K as [K1 K2]. exists (tk ++ [x]). split; [rewrite <- app_assoc; reflexivity|].
           eapply Permutation_trans; [apply Permutation_app_tail; exact Pm|]. rewrite <- app_assoc. apply Permutation_app_head.
           eapply Permutation_trans; [apply Permutation_sym, Permutation_cons_append|exact K1].
        -- intros _. apply K.
        -- exists (tk ++ [x]). split; [rewrite <- app_assoc; reflexivity|].
           eapply Permutation_trans; [apply Permutation_app_tail; exact Pm|]. rewrite <- app_assoc. reflexivity.
        -- intros [].
Qed.
Lemma puts_app : forall (a b : list (eact P)), puts (a ++ b) = puts a ++ puts b.
Proof. induction a as [|[x| | |] a IH]; intros b; cbn [puts app]; rewrite ?IH; reflexivity. Qed.
Lemma run_cons : forall s a l, run s (a :: l) = (fst (run (fst (step s a)) l),
   map (fun x => (match a with EPass t => t | _ => 0%Q end, x)) (snd (step s a)) ++ snd (run (fst (step s a)) l)).
Proof. intros s a l. cbn [em_run]. destruct (step s a) as [s1 o]. cbn [fst snd]. destruct (run s1 l). reflexivity. Qed.
Lemma run_app : forall l1 l2 s, run s (l1 ++ l2) = (fst (run (fst (run s l1)) l2), snd (run s l1) ++ snd (run (fst (run s l1)) l2)).
Proof.
  induction l1 as [|a l1 IH]; intros l2 s.
  - cbn [app em_run fst snd]. destruct (run s l2); reflexivity.
  - change ((a :: l1) ++ l2) with (a :: (l1 ++ l2)). rewrite !run_cons, IH. cbn [fst snd]. rewrite app_assoc. reflexivity.
Qed.
Definition outs (l : list (eact P)) : list (item P) := map snd (snd (run em_new l)).
Definition final (l : list (eact P)) : em P := fst (run em_new l).
Lemma final_app : forall l1 l2, final (l1 ++ l2) = fst (run (final l1) l2).
Proof. intros. unfold final. rewrite run_app. reflexivity. Qed.
Lemma outs_app : forall l1 l2, outs (l1 ++ l2) = outs l1 ++ map snd (snd (run (final l1) l2)).
Proof. intros. unfold outs, final. rewrite run_app. cbn [snd]. apply map_app. Qed.
Lemma outs_snoc : forall l a, outs (l ++ [a]) = outs l ++ snd (step (final l) a).
Proof.
  intros. rewrite outs_app, run_cons. cbn [snd em_run]. rewrite app_nil_r, map_map. f_equal. apply map_id.
Qed.
Lemma final_snoc : forall l a, final (l ++ [a]) = fst (step (final l) a).
Proof. intros. rewrite final_app, run_cons. reflexivity. Qed.
Lemma run_inv : forall l, inv (puts l) (outs l) (final l).
Proof.
  induction l as [|a l IH] using rev_ind.
  - constructor; cbn.
    + exists []. auto.
    + intros _ i Hi. cbn in Hi. lia.
    + intros [|? ?]; discriminate.
  - rewrite puts_app, outs_snoc, final_snoc. destruct (step (final l) a) as [s o] eqn:E. cbn [fst snd].
    exact (step_inv _ _ _ _ _ _ IH E).
Qed.

Lemma once : forall l, Permutation (puts l) (outs l ++ em_heap (final l) ++ em_in (final l)).
Proof.
  intros l. destruct (run_inv l) as [(tk & E & Pm) _ _]. rewrite E, app_assoc. apply Permutation_app_tail. exact Pm.
Qed.
Lemma at_most_once : forall l, exists rest, Permutation (puts l) (outs l ++ rest).
Proof. intros l. eexists. apply once. Qed.
Lemma earliest : forall l u y v, outs l = u ++ y :: v -> exists tk rest r, puts l = tk ++ r /\ Permutation tk (u ++ y :: rest) /\ forall z, In z rest -> (it_due y <= it_due z)%Q.
Proof. intros l. exact (v_ord _ _ _ (run_inv l)). Qed.
Lemma in_order : forall l a x b y u v, NoDup (puts l) -> puts l = a ++ x :: b -> In y b -> (it_due x < it_due y)%Q ->
  outs l = u ++ y :: v -> In x u.
Proof.
  intros l a x b y u v Nd Ep Hy Lt Eo. destruct (earliest _ _ _ _ Eo) as (tk & rest & r & E & Pm & Le).
  assert (Hyt : In y tk) by (eapply Permutation_in; [apply Permutation_sym; exact Pm|apply in_elt]).
  assert (Hxt : In x tk).
  { rewrite E in Ep. destruct (app_split _ _ _ _ _ Ep) as [(q & -> & _)|(q & -> & Er)]; [apply in_elt|].
    exfalso. rewrite E, Er, app_assoc in Nd. apply NoDup_remove in Nd. destruct Nd as [Nd _].
    rewrite <- app_assoc in Nd. apply in_split in Hyt. destruct Hyt as (t1 & t2 & ->).
    rewrite <- app_assoc in Nd. cbn [app] in Nd. apply NoDup_remove in Nd. destruct Nd as [_ Nd]. apply Nd.
    apply in_or_app. right. apply in_or_app. right. apply in_or_app. right. exact Hy. }
  apply (Permutation_in _ Pm) in Hxt. apply in_app_or in Hxt. destruct Hxt as [H|[->|H]]; [exact H|lra|].
  apply Le in H. lra.
Qed.

(** ** Never early *)
Lemma step_not_early : forall ps ds s a t x, inv ps ds s -> In (t, x) (map (fun x => (match a with EPass t => t | _ => 0%Q end, x)) (snd (step s a))) -> (it_due x <= t)%Q.
Proof.
  intros ps ds s a t x I Hx. destruct a as [y| |now|now]; cbn [em_step] in Hx; try contradiction.
  - destruct (em_st s) eqn:Es; try contradiction. destruct (em_stop s); [contradiction|].
    destruct (em_expire p0 peq (S (length (em_heap s))) now (em_heap s)) as [[l h] e] eqn:Ex. cbn [snd] in Hx.
    assert (Hs : isheap (em_heap s)) by (apply (v_heap _ _ _ I); unfold alive; rewrite Es; constructor).
    destruct (expire_spec _ _ _ _ _ _ (Nat.lt_succ_diag_r _) Hs Ex) as (_ & D & _).
    apply in_map_iff in Hx. destruct Hx as (z & Ez & Hz). inversion Ez; subst. apply D; exact Hz.
  - exfalso. destruct (em_st s); try contradiction.
    match type of Hx with context [if ?b then _ else _] => destruct b end; [contradiction|].
    destruct (em_in s); [contradiction|]. destruct (heappush _ _ _ _); contradiction.
Qed.
Lemma not_early : forall l t x, In (t, x) (snd (run em_new l)) -> (it_due x <= t)%Q.
Proof.
  induction l as [|a l IH] using rev_ind; intros t x H; [contradiction|].
  rewrite run_app in H. cbn [snd] in H. apply in_app_or in H. destruct H as [H|H]; [apply IH; exact H|].
  rewrite run_cons in H. cbn [snd em_run] in H. rewrite app_nil_r in H. eapply step_not_early; [apply (run_inv l)|exact H].
Qed.

(** ** Promptness *)
Lemma after_pass : forall l now, em_st (final l) = EmTop -> em_st (final (l ++ [EPass now])) = EmGet ->
  forall x, In x (em_heap (final (l ++ [EPass now]))) -> (now < it_due x)%Q.
Proof.
  intros l now E1 E2 x. rewrite final_snoc in *. cbn [em_step] in *. rewrite E1 in *.
  destruct (em_stop (final l)); [discriminate|].
  destruct (em_expire p0 peq (S (length (em_heap (final l)))) now (em_heap (final l))) as [[o h] e] eqn:Ex. cbn [fst em_st em_heap] in *.
  destruct e; [discriminate|].
  assert (Hs : isheap (em_heap (final l))) by (apply (v_heap _ _ _ (run_inv l)); unfold alive; rewrite E1; constructor).
  destruct (expire_spec _ _ _ _ _ _ (Nat.lt_succ_diag_r _) Hs Ex) as (_ & _ & _ & S). apply S.
Qed.
(** Once not running, nothing is delivered. *)
Lemma dead_stays : forall l s, match em_st s with EmDead _ | EmStopped => True | _ => False end -> snd (run s l) = [] /\ em_st (fst (run s l)) = em_st s.
Proof.
  induction l as [|a l IH]; intros s H; [auto|]. rewrite run_cons. cbn [fst snd].
  assert (K : snd (step s a) = [] /\ em_st (fst (step s a)) = em_st s) by (destruct a; cbn [em_step]; try (split; reflexivity); destruct (em_st s) eqn:Es; try contradiction; split; auto).
  destruct K as [K1 K2]. rewrite K1. cbn [map app]. rewrite <- K2 in H. destruct (IH _ H) as [I1 I2]. rewrite I1, I2. auto.
Qed.
Lemma quiet_run : forall l s, quiet l -> em_heap (fst (run s l)) = em_heap s /\ em_st (fst (run s l)) = em_st s /\ em_in (fst (run s l)) = em_in s ++ puts l.
Proof.
  induction l as [|a l IH]; intros s Q; [cbn; rewrite app_nil_r; auto|].
  rewrite run_cons. cbn [fst]. assert (Qa := Q a (or_introl eq_refl)). destruct a; try contradiction.
  cbn [puts]. destruct (IH (fst (step s (EPut x)))) as (I1 & I2 & I3); [intros b Hb; apply Q; right; exact Hb|].
  rewrite I1, I2, I3. cbn [em_step fst em_in em_heap em_st]. rewrite <- app_assoc. auto.
Qed.
(** How many entries of the puts have been taken. *)
Definition taken (l : list (eact P)) : nat := (length (puts l) - length (em_in (final l)))%nat.
Lemma taken_perm : forall l, exists tk, puts l = tk ++ em_in (final l) /\ length tk = taken l /\ Permutation tk (outs l ++ em_heap (final l)).
Proof.
  intros l. destruct (run_inv l) as [(tk & E & Pm) _ _]. exists tk. split; [exact E|]. split; [|exact Pm].
  unfold taken. rewrite E at 1. rewrite app_length. lia.
Qed.
Lemma round_spec : forall l r b, em_st (final l) = EmGet -> round r b -> em_st (final (l ++ r)) = EmGet ->
  (forall x, In x (em_heap (final (l ++ r))) -> (b < it_due x)%Q) /\
  (taken (l ++ r) = S (taken l) \/ (em_in (final l) = [] /\ taken l <= taken (l ++ r))%nat).
Proof.
  intros l r b El (l1 & a & l2 & l3 & -> & Q1 & Q2 & Q3) Er.
  destruct (quiet_run l1 (final l) Q1) as (H1 & S1 & I1). rewrite <- final_app in H1, S1, I1. rewrite El in S1.
  assert (St : em_st (final ((l ++ l1) ++ [ETake a])) = EmTop /\ length (em_in (final ((l ++ l1) ++ [ETake a]))) = (length (em_in (final (l ++ l1))) - 1)%nat).
  { rewrite final_snoc. cbn [em_step]. rewrite S1.
    match goal with |- context [if ?c then _ else _] => destruct c eqn:Ec end.
    - exfalso. replace (l ++ l1 ++ ETake a :: l2 ++ EPass b :: l3) with (((l ++ l1) ++ [ETake a]) ++ l2 ++ EPass b :: l3) in Er by (rewrite <- !app_assoc; reflexivity).
      rewrite final_app, final_snoc in Er. cbn [em_step] in Er. rewrite S1, Ec in Er. cbn [fst] in Er.
      match type of Er with em_st (fst (run ?s ?q)) = _ => rewrite (proj2 (dead_stays q s I)) in Er end. discriminate.
    - destruct (em_in (final (l ++ l1))) as [|x q] eqn:Ei; [split; reflexivity|].
      destruct (heappush i0 ilt (em_heap (final (l ++ l1))) x) as [h|e] eqn:Eh; [split; cbn; [reflexivity|lia]|].
      exfalso. replace (l ++ l1 ++ ETake a :: l2 ++ EPass b :: l3) with (((l ++ l1) ++ [ETake a]) ++ l2 ++ EPass b :: l3) in Er by (rewrite <- !app_assoc; reflexivity).
      rewrite final_app, final_snoc in Er. cbn [em_step] in Er. rewrite S1, Ec, Ei, Eh in Er. cbn [fst] in Er.
      match type of Er with em_st (fst (run ?s ?q)) = _ => rewrite (proj2 (dead_stays q s I)) in Er end. discriminate. }
  destruct St as [St Sl]. set (m := (l ++ l1) ++ [ETake a]) in *.
  destruct (quiet_run l2 (final m) Q2) as (H2 & S2 & I2). rewrite <- final_app in H2, S2, I2. rewrite St in S2.
  set (k := m ++ l2) in *.
  assert (Ew : l ++ l1 ++ ETake a :: l2 ++ EPass b :: l3 = (k ++ [EPass b]) ++ l3) by (unfold k, m; rewrite <- !app_assoc; reflexivity).
  rewrite Ew in Er |- *.
  destruct (quiet_run l3 (final (k ++ [EPass b])) Q3) as (H3 & S3 & I3). rewrite <- final_app in H3, S3, I3.
  rewrite S3 in Er. split.
  - intros x Hx. rewrite H3 in Hx. eapply after_pass; eauto.
  - assert (Ip : em_in (final (k ++ [EPass b])) = em_in (final k)).
    { rewrite final_snoc. cbn [em_step]. rewrite S2. destruct (em_stop (final k)); [reflexivity|].
      destruct (em_expire _ _ _ _ _) as [[? ?] ?]. reflexivity. }
    unfold taken. rewrite I3, Ip, I2. unfold k, m. rewrite !puts_app. cbn [puts]. rewrite !app_nil_r, !app_length.
    fold m. rewrite Sl, I1, app_length.
    destruct (taken_perm l) as (tk & Et & Lt & _). apply (f_equal (@length _)) in Et. rewrite app_length in Et.
    destruct (em_in (final l)) as [|x q]; cbn [length] in *; [right; split; [reflexivity|lia]|left; lia].
Qed.
Lemma rounds_spec : forall n r b, rounds n r b -> forall l, em_st (final l) = EmGet -> em_st (final (l ++ r)) = EmGet ->
  (forall x, In x (em_heap (final (l ++ r))) -> (b < it_due x)%Q) /\ (Nat.min (length (puts l)) (n + taken l) <= taken (l ++ r))%nat.
Proof.
  intros n r b R. induction R as [r b H|n r1 r2 b b' R IH H]; intros l El Er.
  - destruct (round_spec _ _ _ El H Er) as [K1 [K2|[K2 K3]]]; (split; [exact K1|]); [lia|].
    assert (taken l = length (puts l)) by (unfold taken; rewrite K2; cbn; lia). lia.
  - rewrite app_assoc in Er |- *.
    assert (Em : em_st (final (l ++ r1)) = EmGet).
    { destruct H as (l1 & a & l2 & l3 & -> & Q1 & Q2 & Q3). clear IH.
      assert (Ec : em_st (final ((l ++ r1) ++ l1)) = em_st (final (l ++ r1))) by (rewrite final_app; apply quiet_run; exact Q1).
      (* the state after whole rounds is never the top of the loop *)
      destruct (em_st (final (l ++ r1))) eqn:Es; try reflexivity; exfalso.
      - assert (Xs : forall n r b, rounds n r b -> em_st (final (l ++ r)) <> EmTop).
        { clear - p0. intros n r b R. assert (Xr : forall m r b, round r b -> em_st (final (m ++ r)) <> EmTop).
          { intros m q c (m1 & d & m2 & m3 & -> & _ & _ & Q). replace (m ++ m1 ++ ETake d :: m2 ++ EPass c :: m3) with ((m ++ m1 ++ ETake d :: m2) ++ [EPass c] ++ m3) by (rewrite <- !app_assoc; reflexivity).
            rewrite app_assoc, final_app. destruct (quiet_run m3 (final ((m ++ m1 ++ ETake d :: m2) ++ [EPass c])) Q) as (_ & -> & _).
            rewrite final_snoc. cbn [em_step]. destruct (em_st (final (m ++ m1 ++ ETake d :: m2))) eqn:E; cbn [fst em_st]; try congruence.
            destruct (em_stop _); cbn [fst em_st]; [discriminate|]. destruct (em_expire _ _ _ _ _) as [[? ?] [?|]]; discriminate. }
          destruct R; [apply Xr with b; assumption|rewrite app_assoc; eapply Xr; eassumption]. }
        exact (Xs _ _ _ R Es).
      - rewrite final_app in Er. rewrite (proj2 (dead_stays _ (final (l ++ r1)) ltac:(rewrite Es; exact I))), Es in Er. discriminate.
      - rewrite final_app in Er. rewrite (proj2 (dead_stays _ (final (l ++ r1)) ltac:(rewrite Es; exact I))), Es in Er. discriminate. }
    destruct (IH _ El Em) as [_ K0]. destruct (round_spec _ _ _ Em H Er) as [K1 [K2|[K2 K3]]]; (split; [exact K1|]); [lia|].
    assert (taken (l ++ r1) = length (puts (l ++ r1))) by (unfold taken; rewrite K2; cbn; lia). rewrite puts_app, app_length in *. lia.
Qed.
Lemma prompt : forall l n r b x, em_st (final l) = EmGet -> rounds n r b -> em_st (final (l ++ r)) = EmGet ->
  (length (puts l) <= n)%nat -> In x (puts l) -> (it_due x <= b)%Q -> In x (outs (l ++ r)).
Proof.
  intros l n r b x El R Er Ln Hx Ld. destruct (rounds_spec _ _ _ R _ El Er) as [K1 K2].
  destruct (taken_perm (l ++ r)) as (tk & Et & Lt & Pm).
  assert (Hk : In x tk).
  { apply in_split in Hx. destruct Hx as (a & c & Ea). rewrite puts_app, Ea in Et.
    rewrite <- app_assoc in Et. cbn [app] in Et. symmetry in Et. destruct (app_split _ _ _ _ _ Et) as [(q & -> & _)|(q & E & _)]; [apply in_elt|].
    exfalso. apply (f_equal (@length _)) in E. apply (f_equal (@length _)) in Ea. rewrite app_length in *. cbn [length] in Ea. lia. }
  apply (Permutation_in _ Pm) in Hk. apply in_app_or in Hk. destruct Hk as [H|H]; [exact H|]. apply K1 in H. lra.
Qed.

(** ** When the emulator's thread survives *)
Lemma no_ties_perm : forall (l l' : list (item P)), Permutation l l' -> no_ties l -> no_ties l'.
Proof.
  intros l l' Pm H i j x y Ei Ej N. apply Permutation_nth_error in Pm. destruct Pm as (_ & f & If & Ef).
  rewrite Ef in Ei, Ej. apply (H (f i) (f j)); auto.
Qed.
Lemma no_ties_app : forall (l l' : list (item P)), no_ties (l ++ l') -> no_ties l.
Proof.
  intros l l' H i j x y Ei Ej. apply H; rewrite nth_error_app1; auto; apply nth_error_Some; congruence.
Qed.
Lemma ilt_err : forall a b e, ilt a b = Err e -> (it_due a == it_due b)%Q /\ it_dev a = it_dev b.
Proof.
  intros a b e. unfold item_lt. destruct (Qeq_bool (it_due a) (it_due b)) eqn:E; cbn [negb]; [|discriminate].
  destruct (String.eqb_spec (it_dev a) (it_dev b)) as [Ed|N]; cbn [negb]; [|discriminate]. intros _. split; [apply Qeq_bool_eq; exact E|exact Ed].
Qed.
Lemma fromlt_ties : forall h r e, fromlt h e -> no_ties (h ++ r) -> False.
Proof.
  intros h r e (a & b & q & Pm & E) H. apply no_ties_app in H. apply (no_ties_perm _ _ Pm) in H.
  apply ilt_err in E. exact (H 0%nat 1%nat a b eq_refl eq_refl ltac:(lia) (proj1 E) (proj2 E)).
Qed.
Lemma last_pass : forall l, em_st (final l) = EmGet -> exists l1 a l2, l = l1 ++ EPass a :: l2 /\ (forall t, ~ In (ETake t) l2) /\
  forall x, In x (em_heap (final l)) -> (a < it_due x)%Q.
Proof.
  induction l as [|a l IH] using rev_ind; intros E; [discriminate|].
  assert (K : em_st (final l) = EmGet -> em_heap (final (l ++ [a])) = em_heap (final l) -> (forall t, a <> ETake t) ->
    exists l1 c l2, l ++ [a] = l1 ++ EPass c :: l2 /\ (forall t, ~ In (ETake t) l2) /\ forall x, In x (em_heap (final (l ++ [a]))) -> (c < it_due x)%Q).
  { intros G Hh Na. destruct (IH G) as (l1 & c & l2 & El & N & Hd). exists l1, c, (l2 ++ [a]). split; [rewrite El, <- app_assoc; reflexivity|].
    split; [intros t H; apply in_app_or in H; destruct H as [H|[H|[]]]; [exact (N _ H)|exact (Na _ H)]|]. rewrite Hh. exact Hd. }
  rewrite final_snoc in E. destruct a as [x| |now|now].
  - apply K; [exact E|rewrite final_snoc; reflexivity|discriminate].
  - apply K; [exact E|rewrite final_snoc; reflexivity|discriminate].
  - destruct (em_st (final l)) eqn:Es.
    + exists l, now, []. split; [reflexivity|]. split; [intros t []|]. apply after_pass; [exact Es|rewrite final_snoc; exact E].
    + apply K; [reflexivity|rewrite final_snoc; cbn [em_step]; rewrite Es; reflexivity|discriminate].
    + cbn [em_step] in E. rewrite Es in E. cbn [fst] in E. congruence.
    + cbn [em_step] in E. rewrite Es in E. cbn [fst] in E. congruence.
  - exfalso. cbn [em_step] in E. destruct (em_st (final l)) eqn:Es; cbn [fst] in E; try congruence.
    match type of E with context [if ?b then _ else _] => destruct b end; [discriminate|]. destruct (em_in (final l)); [discriminate|].
    destruct (heappush _ _ _ _); discriminate.
Qed.
Lemma survives : forall l, no_ties (puts l) -> clock_gap_free l -> alive (final l).
Proof.
  induction l as [|a l IH] using rev_ind; intros Nt Cg; [exact I|].
  assert (A : alive (final l)).
  { apply IH; [rewrite puts_app in Nt; apply no_ties_app in Nt; exact Nt|].
    intros l1 t l2 b l3 x E N Hx. apply (Cg l1 t l2 b (l3 ++ [a])); auto; [|rewrite puts_app; apply in_or_app; auto].
    rewrite E, <- !app_assoc. cbn [app]. rewrite <- !app_assoc. reflexivity. }
  assert (Pm := once l). assert (Hp := v_heap _ _ _ (run_inv l) A).
  assert (Nt' : no_ties (em_heap (final l) ++ em_in (final l))).
  { rewrite puts_app in Nt. apply no_ties_app in Nt. apply (no_ties_perm _ _ Pm) in Nt.
    apply (no_ties_perm _ _ (Permutation_app_comm _ _)) in Nt. apply no_ties_app in Nt. exact Nt. }
  unfold alive in *. rewrite final_snoc. destruct a as [x| |now|now]; cbn [em_step]; cbn [fst em_st]; auto.
  - destruct (em_st (final l)) eqn:Es; cbn [fst]; try (rewrite ?Es; exact A). destruct (em_stop (final l)); cbn [fst em_st]; [exact I|].
    destruct (em_expire p0 peq (S (length (em_heap (final l)))) now (em_heap (final l))) as [[o h] e] eqn:Ex. cbn [fst em_st].
    destruct (expire_spec _ _ _ _ _ _ (Nat.lt_succ_diag_r _) Hp Ex) as (_ & _ & _ & S). destruct e as [e|]; [|exact I].
    exact (fromlt_ties _ _ _ S Nt').
  - destruct (em_st (final l)) eqn:Es; cbn [fst]; try (rewrite ?Es; exact A).
    match goal with |- context [if ?c then _ else _] => destruct c eqn:Ec end; cbn [fst em_st].
    + destruct (last_pass l Es) as (l1 & t & l2 & El & N & Hd). destruct (em_heap (final l)) as [|x h] eqn:Eh; [discriminate|].
      apply negb_true_iff in Ec. apply Qleb_false in Ec.
      apply (Cg l1 t l2 now [] x); [rewrite El, <- app_assoc; reflexivity|exact N| |split; [apply Hd; left; reflexivity|exact Ec]].
      rewrite puts_app. apply in_or_app. left. eapply Permutation_in; [apply Permutation_sym; exact Pm|]. apply in_or_app. right. left. reflexivity.
    + destruct (em_in (final l)) as [|x q] eqn:Ei; cbn [fst em_st]; [exact I|].
      pose proof (heappush_spec i0 ilt ile ile_refl ile_trans ilt_true ilt_false (em_heap (final l)) x Hp) as K.
      destruct (heappush i0 ilt (em_heap (final l)) x) as [h|e]; cbn [fst em_st]; [exact I|].
      apply (fromlt_ties _ q _ K). apply (no_ties_perm (em_heap (final l) ++ x :: q)); [|exact Nt'].
      apply Permutation_sym, Permutation_middle.
Qed.

(** ** As long as nobody stops it, it runs *)
Lemma gap_app : forall l l' : list (eact P), clock_gap_free (l ++ l') -> clock_gap_free l.
Proof.
  intros l l' Cg l1 t l2 b l3 x E N Hx. apply (Cg l1 t l2 b (l3 ++ l')); auto; [|rewrite puts_app; apply in_or_app; auto].
  rewrite E, <- !app_assoc. cbn [app]. rewrite <- !app_assoc. reflexivity.
Qed.
Lemma ties_app : forall l l' : list (eact P), no_ties (puts (l ++ l')) -> no_ties (puts l).
Proof. intros l l' H. rewrite puts_app in H. apply no_ties_app in H. exact H. Qed.
Lemma running : forall l, no_ties (puts l) -> clock_gap_free l -> ~ In EShut l -> em_stop (final l) = false /\ (em_st (final l) = EmTop \/ em_st (final l) = EmGet).
Proof.
  induction l as [|a l IH] using rev_ind; intros Nt Cg Ns; [split; [reflexivity|left; reflexivity]|].
  destruct (IH (ties_app _ _ Nt) (gap_app _ _ Cg)) as [St Ru]; [intros H; apply Ns, in_or_app; auto|].
  pose proof (survives _ Nt Cg) as A. unfold alive in A. rewrite final_snoc in *. destruct a as [x| |now|now]; cbn [em_step] in *.
  - cbn [fst em_stop em_st]. auto.
  - exfalso. apply Ns, in_or_app. right. left. reflexivity.
  - destruct Ru as [Ru|Ru]; rewrite Ru in *; cbn [fst] in *; [|auto]. rewrite St in *.
    destruct (em_expire p0 peq (S (length (em_heap (final l)))) now (em_heap (final l))) as [[o h] e]. cbn [fst em_st em_stop] in *. destruct e; [destruct A|auto].
  - destruct Ru as [Ru|Ru]; rewrite Ru in *; cbn [fst] in *; [auto|].
    match goal with |- context [if ?c then _ else _] => destruct c end; cbn [fst em_st em_stop] in *; [destruct A|].
    destruct (em_in (final l)) as [|x q]; cbn [fst em_st em_stop] in *; [auto|]. destruct (heappush i0 ilt (em_heap (final l)) x); cbn [fst em_st em_stop] in *; [auto|destruct A].
Qed.
Lemma quiet_keeps : forall q l, quiet q -> em_st (final (l ++ q)) = em_st (final l).
Proof.
  induction q as [|a q IH] using rev_ind; intros l Q; [rewrite app_nil_r; reflexivity|]. rewrite app_assoc, final_snoc.
  assert (Qq : quiet q) by (intros z Hz; apply Q, in_or_app; auto). pose proof (Q a ltac:(apply in_or_app; right; left; reflexivity)) as K.
  destruct a; try destruct K. cbn [em_step fst em_st]. apply IH, Qq.
Qed.
Lemma pass_end : forall l t q, quiet q -> no_ties (puts (l ++ EPass t :: q)) -> clock_gap_free (l ++ EPass t :: q) -> ~ In EShut (l ++ EPass t :: q) ->
  em_st (final (l ++ EPass t :: q)) = EmGet.
Proof.
  intros l t q Q Nt Cg Ns. change (EPass t :: q) with ([EPass t] ++ q) in *. rewrite app_assoc in *. rewrite quiet_keeps by exact Q.
  apply ties_app in Nt. apply gap_app in Cg. assert (Ns1 : ~ In EShut (l ++ [EPass t])) by (intros H; apply Ns, in_or_app; auto).
  destruct (running _ Nt Cg Ns1) as [S1 R1]. destruct (running l (ties_app _ _ Nt) (gap_app _ _ Cg)) as [S0 R0]; [intros H; apply Ns1, in_or_app; auto|].
  rewrite final_snoc in *. cbn [em_step] in *. destruct R0 as [R0|R0]; rewrite R0 in *; cbn [fst] in *; [|exact R0]. rewrite S0 in *.
  destruct (em_expire p0 peq (S (length (em_heap (final l)))) t (em_heap (final l))) as [[o h] e]. cbn [fst em_st] in *. destruct e; [|reflexivity]. destruct R1; discriminate.
Qed.
Lemma rounds_end : forall n (r : list (eact P)) b, rounds n r b -> exists r0 q, r = r0 ++ EPass b :: q /\ quiet q.
Proof.
  intros n r b [l b0 (l1 & a & l2 & l3 & -> & _ & _ & Q)|n0 l l' b0 b' _ (l1 & a & l2 & l3 & -> & _ & _ & Q)].
  - exists (l1 ++ ETake a :: l2), l3. split; [rewrite <- !app_assoc; cbn [app]; reflexivity|exact Q].
  - exists (l ++ l1 ++ ETake a :: l2), l3. split; [rewrite <- !app_assoc; cbn [app]; reflexivity|exact Q].
Qed.
Lemma all_out : forall l t q n r b x, quiet q -> let h := l ++ EPass t :: q in
  no_ties (puts (h ++ r)) -> clock_gap_free (h ++ r) -> ~ In EShut (h ++ r) -> rounds n r b -> (length (puts h) <= n)%nat ->
  In x (puts h) -> (it_due x <= b)%Q -> In x (outs (h ++ r)).
Proof.
  intros l t q n r b x Q h Nt Cg Ns R Ln Hx Hd. apply (prompt h n r b x); auto.
  - unfold h in *. apply pass_end; [exact Q|exact (ties_app _ _ Nt)|exact (gap_app _ _ Cg)|]. intros H. apply Ns, in_or_app. auto.
  - destruct (rounds_end _ _ _ R) as (r0 & q2 & -> & Q2). rewrite app_assoc in *. apply pass_end; auto.
Qed.
End Proofs.
