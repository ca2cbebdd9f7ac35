(** heapq keeps its elements, keeps the heap order and pops a smallest element, whatever the comparison, as long as it
    agrees with a preorder when it does not raise. *)
From Coq Require Import Permutation FinFun.
From Verif Require Import Base BaseLemmas LinkModel.

Section HeapProofs.
Context {A : Type} (d : A) (lt : A -> A -> res bool) (le : A -> A -> Prop).
Hypothesis le_refl : forall a, le a a.
Hypothesis le_trans : forall a b c, le a b -> le b c -> le a c.
Hypothesis lt_true : forall a b, lt a b = Ok true -> le a b.
Hypothesis lt_false : forall a b, lt a b = Ok false -> le b a.
#[local] Notation g h i := (nth i h d).

Lemma put_length : forall i x (h : list A), (i < length h)%nat -> length (put i x h) = length h.
Proof. intros i x h H. unfold put. rewrite app_length, firstn_length. cbn [length]. rewrite skipn_length. lia. Qed.
Lemma put_nth : forall i x (h : list A) k, (i < length h)%nat -> g (put i x h) k = if Nat.eqb k i then x else g h k.
Proof.
  intros i x h k H. unfold put. destruct (Nat.eqb_spec k i) as [->|N].
  - rewrite app_nth2; rewrite firstn_length_le by lia; [|lia]. rewrite Nat.sub_diag. reflexivity.
  - destruct (Nat.lt_ge_cases k i) as [L|L].
    + rewrite app_nth1 by (rewrite firstn_length_le; lia).
      rewrite <- (firstn_skipn i h) at 2. rewrite app_nth1 by (rewrite firstn_length_le; lia). reflexivity.
    + rewrite app_nth2 by (rewrite firstn_length_le; lia). rewrite firstn_length_le by lia.
      destruct (k - i)%nat as [|m] eqn:E; [lia|]. cbn [nth].
      rewrite <- (firstn_skipn (S i) h) at 2. rewrite app_nth2 by (rewrite firstn_length_le; lia).
      rewrite firstn_length_le by lia. f_equal. lia.
Qed.
Lemma swap_length : forall i j (h : list A), (i < length h)%nat -> (j < length h)%nat -> length (swap d i j h) = length h.
Proof. intros i j h Hi Hj. unfold swap. rewrite put_length; rewrite put_length; auto. Qed.
Lemma swap_nth : forall i j (h : list A) k, (i < length h)%nat -> (j < length h)%nat ->
  g (swap d i j h) k = if Nat.eqb k j then g h i else if Nat.eqb k i then g h j else g h k.
Proof.
  intros i j h k Hi Hj. unfold swap. rewrite put_nth by (rewrite put_length; auto).
  destruct (Nat.eqb_spec k j); [reflexivity|]. rewrite put_nth by auto. reflexivity.
Qed.
Lemma swap_perm : forall i j (h : list A), (i < length h)%nat -> (j < length h)%nat -> Permutation h (swap d i j h).
Proof.
  intros i j h Hi Hj. apply (Permutation_nth h (swap d i j h) d). split; [apply swap_length; auto|].
  exists (fun k => if Nat.eqb k j then i else if Nat.eqb k i then j else k). repeat split.
  - intros k Hk. destruct (Nat.eqb k j); [auto|]. destruct (Nat.eqb k i); auto.
  - intros a b Ha Hb. destruct (Nat.eqb_spec a j), (Nat.eqb_spec b j); try (intros; lia);
    destruct (Nat.eqb_spec a i), (Nat.eqb_spec b i); intros; lia.
  - intros k Hk. rewrite swap_nth by auto. destruct (Nat.eqb k j); [reflexivity|]. destruct (Nat.eqb k i); reflexivity.
Qed.

Definition is_heap (h : list A) : Prop := forall i, (0 < i < length h)%nat -> le (g h (parent i)) (g h i).
(** The exception comes from the comparison of two entries of the heap. *)
Definition from_lt (h : list A) (e : exn) : Prop := exists a b r, Permutation h (a :: b :: r) /\ lt a b = Err e.
Lemma from_lt_perm : forall h h' e, Permutation h h' -> from_lt h' e -> from_lt h e.
Proof. intros h h' e Pm (a & b & r & P1 & E). exists a, b, r. split; [eapply Permutation_trans; eauto|exact E]. Qed.
Lemma nth_front : forall (h : list A) i, (i < length h)%nat -> exists r, Permutation h (g h i :: r) /\ length h = S (length r) /\
  forall j, (j < length h)%nat -> j <> i -> In (g h j) r.
Proof.
  induction h as [|x h IH]; intros [|i] Hi; cbn [length] in Hi; try lia.
  - exists h. split; [reflexivity|]. split; [reflexivity|]. intros [|j] Hj N; [lia|]. cbn [nth]. apply nth_In. cbn [length] in Hj. lia.
  - destruct (IH i ltac:(lia)) as (r & P1 & L1 & I1). exists (x :: r). cbn [nth length]. split.
    + eapply Permutation_trans; [apply perm_skip; exact P1|apply perm_swap].
    + split; [lia|]. intros [|j] Hj N; [left; reflexivity|]. right. apply I1; lia.
Qed.
Lemma two_front : forall (h : list A) i j, (i < length h)%nat -> (j < length h)%nat -> j <> i -> exists r, Permutation h (g h i :: g h j :: r).
Proof.
  intros h i j Hi Hj N. destruct (nth_front h i Hi) as (r & P1 & _ & I1). destruct (in_split _ _ (I1 j Hj N)) as (a & b & E).
  exists (a ++ b). eapply Permutation_trans; [exact P1|]. apply perm_skip. rewrite E. apply Permutation_sym, Permutation_middle.
Qed.
Lemma from_nth : forall h i j e, (i < length h)%nat -> (j < length h)%nat -> j <> i -> lt (g h i) (g h j) = Err e -> from_lt h e.
Proof. intros h i j e Hi Hj N E. destruct (two_front h i j Hi Hj N) as (r & Pm). exists (g h i), (g h j), r. auto. Qed.

Lemma parent_lt : forall i, (0 < i)%nat -> (parent i < i)%nat.
Proof. intros i H. unfold parent. apply Nat.div_lt_upper_bound; lia. Qed.
Lemma parent_iff : forall i p, (0 < i)%nat -> parent i = p <-> (i = 2 * p + 1 \/ i = 2 * p + 2)%nat.
Proof. intros i p H. unfold parent. pose proof (Nat.div_mod (i - 1) 2). pose proof (Nat.mod_upper_bound (i - 1) 2). lia. Qed.

Lemma siftdown_spec : forall fuel h pos, (pos < length h)%nat -> (pos < fuel)%nat ->
  (forall i, (0 < i < length h)%nat -> i <> pos -> le (g h (parent i)) (g h i)) ->
  (forall i, (0 < i < length h)%nat -> (0 < pos)%nat -> parent i = pos -> le (g h (parent pos)) (g h i)) ->
  match siftdown d lt fuel h pos with
  | Ok h' => Permutation h h' /\ is_heap h'
  | Err e => from_lt h e
  end.
Proof.
  induction fuel as [|f IH]; intros h pos Hp Hf HI HP; [lia|]. cbn [siftdown].
  destruct (Nat.eqb_spec pos 0) as [->|N0].
  - split; [reflexivity|]. intros i Hi. apply HI; lia.
  - pose proof (parent_lt pos ltac:(lia)) as L. remember (parent pos) as p eqn:Ep.
    destruct (lt (g h pos) (g h p)) as [b|e] eqn:E; cbn [bindr]; [|apply (from_nth h pos p); auto; lia].
    destruct b.
    + assert (Hpl : (p < length h)%nat) by lia.
      specialize (IH (swap d pos p h) p). rewrite (swap_length pos p h Hp Hpl) in IH.
      specialize (IH Hpl ltac:(lia)).
      assert (X1 : forall i, (0 < i < length h)%nat -> i <> p -> le (g (swap d pos p h) (parent i)) (g (swap d pos p h) i)).
      { intros i Hi Hne. rewrite !swap_nth by auto. pose proof (parent_lt i ltac:(lia)).
        destruct (Nat.eqb_spec i p); [lia|]. destruct (Nat.eqb_spec i pos) as [->|Nip].
        - rewrite <- Ep, Nat.eqb_refl. apply lt_true; exact E.
        - destruct (Nat.eqb_spec (parent i) p) as [E1|N1].
          + eapply le_trans; [apply lt_true; exact E|]. rewrite <- E1. apply HI; auto.
          + destruct (Nat.eqb_spec (parent i) pos) as [E2|N2]; [apply HP; auto; lia|]. apply HI; auto. }
      assert (X2 : forall i, (0 < i < length h)%nat -> (0 < p)%nat -> parent i = p -> le (g (swap d pos p h) (parent p)) (g (swap d pos p h) i)).
      { intros i Hi Hpp Epi. rewrite !swap_nth by auto. pose proof (parent_lt p Hpp). pose proof (parent_lt i ltac:(lia)).
        destruct (Nat.eqb_spec (parent p) p); [lia|]. destruct (Nat.eqb_spec (parent p) pos); [lia|].
        destruct (Nat.eqb_spec i p); [lia|]. assert (K : le (g h (parent p)) (g h p)) by (apply HI; lia).
        destruct (Nat.eqb_spec i pos) as [->|Nip]; [exact K|]. eapply le_trans; [exact K|]. rewrite <- Epi at 1. apply HI; auto. }
      specialize (IH X1 X2). destruct (siftdown d lt f (swap d pos p h) p) as [h'|e]; [|eapply from_lt_perm; [apply (swap_perm pos p h); auto|exact IH]].
      destruct IH as [P1 H1]. split; [|exact H1]. eapply Permutation_trans; [apply (swap_perm pos p h); auto|exact P1].
    + split; [reflexivity|]. intros i Hi. destruct (Nat.eq_dec i pos) as [->|N]; [rewrite <- Ep; apply lt_false; exact E|apply HI; auto].
Qed.

Lemma siftup_spec : forall fuel h pos, (pos < length h)%nat -> (length h <= fuel + pos)%nat ->
  (forall i, (0 < i < length h)%nat -> i <> pos -> parent i <> pos -> le (g h (parent i)) (g h i)) ->
  (forall i, (0 < i < length h)%nat -> (0 < pos)%nat -> parent i = pos -> le (g h (parent pos)) (g h i)) ->
  match siftup d lt fuel h pos with
  | Ok h' => Permutation h h' /\ is_heap h'
  | Err e => from_lt h e
  end.
Proof.
  induction fuel as [|f IH]; intros h pos Hp Hf HI HP; [lia|]. cbn [siftup].
  destruct (Nat.ltb_spec (2 * pos + 1) (length h)) as [Lc|Lc].
  - assert (C : match (if Nat.ltb (S (2 * pos + 1)) (length h)
              then bindr (lt (g h (2 * pos + 1)) (g h (S (2 * pos + 1)))) (fun b => Ok (if (b : bool) then (2 * pos + 1)%nat else S (2 * pos + 1)))
              else Ok (2 * pos + 1)%nat) with
            | Ok c => (0 < c < length h)%nat /\ parent c = pos /\ (forall i, (0 < i < length h)%nat -> parent i = pos -> le (g h c) (g h i))
            | Err e => from_lt h e
            end).
    { assert (P1 : parent (2 * pos + 1) = pos) by (apply parent_iff; lia).
      assert (P2 : parent (S (2 * pos + 1)) = pos) by (apply parent_iff; lia).
      destruct (Nat.ltb_spec (S (2 * pos + 1)) (length h)) as [Lr|Lr].
      - destruct (lt (g h (2 * pos + 1)) (g h (S (2 * pos + 1)))) as [b|e] eqn:E; cbn [bindr]; [|apply (from_nth h (2 * pos + 1) (S (2 * pos + 1))); auto; lia].
        destruct b; split; [lia| |lia|]; (split; [assumption|]); intros i Hi Epi; apply parent_iff in Epi; try lia;
        destruct Epi as [->|Ei].
        + apply le_refl.
        + replace i with (S (2 * pos + 1)) by lia. apply lt_true; exact E.
        + apply lt_false; exact E.
        + replace i with (S (2 * pos + 1)) by lia. apply le_refl.
      - split; [lia|]. split; [exact P1|]. intros i Hi Epi. apply parent_iff in Epi; [|lia].
        destruct Epi as [->|Ei]; [apply le_refl|lia]. }
    match type of C with match ?x with Ok _ => _ | Err _ => _ end => destruct x as [c|e] end; cbn [bindr]; [|exact C].
    destruct C as (Hc & Ec & Hmin). pose proof (parent_lt c ltac:(lia)) as L. rewrite Ec in L.
    assert (Hcl : (c < length h)%nat) by lia.
    specialize (IH (swap d pos c h) c). rewrite (swap_length pos c h Hp Hcl) in IH. specialize (IH Hcl ltac:(lia)).
    assert (X1 : forall i, (0 < i < length h)%nat -> i <> c -> parent i <> c -> le (g (swap d pos c h) (parent i)) (g (swap d pos c h) i)).
    { intros i Hi N1 N2. rewrite !swap_nth by auto.
      destruct (Nat.eqb_spec (parent i) c); [lia|]. destruct (Nat.eqb_spec i c); [lia|].
      destruct (Nat.eqb_spec i pos) as [->|Nip].
      - destruct (Nat.eqb_spec (parent pos) pos) as [E|_]; [pose proof (parent_lt pos ltac:(lia)); lia|]. apply HP; auto; lia.
      - destruct (Nat.eqb_spec (parent i) pos) as [E|N]; [apply Hmin; auto|apply HI; auto]. }
    assert (X2 : forall i, (0 < i < length h)%nat -> (0 < c)%nat -> parent i = c -> le (g (swap d pos c h) (parent c)) (g (swap d pos c h) i)).
    { intros i Hi _ Epi. rewrite !swap_nth by auto. rewrite Ec. pose proof (parent_lt i ltac:(lia)).
      destruct (Nat.eqb_spec pos c); [lia|]. rewrite Nat.eqb_refl.
      destruct (Nat.eqb_spec i c); [lia|]. destruct (Nat.eqb_spec i pos); [lia|]. rewrite <- Epi. apply HI; lia. }
    specialize (IH X1 X2). destruct (siftup d lt f (swap d pos c h) c) as [h'|e]; [|eapply from_lt_perm; [apply (swap_perm pos c h); auto|exact IH]].
    destruct IH as [P1 H1]. split; [|exact H1]. eapply Permutation_trans; [apply (swap_perm pos c h); auto|exact P1].
  - apply siftdown_spec; auto.
    intros i Hi N. apply HI; auto. intros Epi; apply parent_iff in Epi; lia.
Qed.

Lemma heappush_spec : forall h x, is_heap h ->
  match heappush d lt h x with
  | Ok h' => Permutation (x :: h) h' /\ is_heap h'
  | Err e => from_lt (x :: h) e
  end.
Proof.
  intros h x H. unfold heappush. pose proof (siftdown_spec (S (length h)) (h ++ [x]) (length h)) as K.
  rewrite app_length in K. cbn [length] in K. specialize (K ltac:(lia) ltac:(lia)).
  assert (X1 : forall i, (0 < i < length h + 1)%nat -> i <> length h -> le (g (h ++ [x]) (parent i)) (g (h ++ [x]) i)).
  { intros i Hi N. pose proof (parent_lt i ltac:(lia)). rewrite !app_nth1 by lia. apply H. lia. }
  assert (X2 : forall i, (0 < i < length h + 1)%nat -> (0 < length h)%nat -> parent i = length h -> le (g (h ++ [x]) (parent (length h))) (g (h ++ [x]) i)).
  { intros i Hi _ E. apply parent_iff in E; lia. }
  specialize (K X1 X2). destruct (siftdown d lt (S (length h)) (h ++ [x]) (length h)) as [h'|e]; [|eapply from_lt_perm; [apply Permutation_cons_append|exact K]].
  destruct K as [P H']. split; [|exact H']. eapply Permutation_trans; [apply Permutation_cons_append|exact P].
Qed.

Lemma heap_root : forall x h i, is_heap (x :: h) -> (i < length (x :: h))%nat -> le x (g (x :: h) i).
Proof.
  intros x h i H. induction i as [i IH] using lt_wf_ind. intros Hi. destruct i as [|i]; [apply le_refl|].
  pose proof (parent_lt (S i) ltac:(lia)). eapply le_trans; [apply IH|apply H]; lia.
Qed.
Lemma heap_root_In : forall x h y, is_heap (x :: h) -> In y (x :: h) -> le x y.
Proof. intros x h y H Hy. destruct (In_nth _ _ d Hy) as (i & Hi & <-). apply heap_root; auto. Qed.

Lemma heappop_spec : forall x h, is_heap (x :: h) ->
  match heappop d lt (x :: h) with
  | Ok (y, h') => y = x /\ Permutation h h' /\ is_heap h'
  | Err e => from_lt (x :: h) e
  end.
Proof.
  intros x h H. unfold heappop. cbv zeta.
  destruct h as [|z h].
  - cbn. split; [reflexivity|]. split; [constructor|]. intros i Hi. cbn in Hi. lia.
  - change (removelast (x :: z :: h)) with (x :: removelast (z :: h)). cbv iota beta.
    change (last (x :: z :: h) d) with (last (z :: h) d).
    assert (S1 : z :: h = removelast (z :: h) ++ [last (z :: h) d]) by (apply app_removelast_last; discriminate).
    set (r := removelast (z :: h)) in *. set (w := last (z :: h) d) in *.
    pose proof (siftup_spec (S (length r)) (w :: r) 0) as K. cbn [length] in K. specialize (K ltac:(lia) ltac:(lia)).
    assert (X1 : forall i, (0 < i < S (length r))%nat -> i <> 0%nat -> parent i <> 0%nat -> le (g (w :: r) (parent i)) (g (w :: r) i)).
    { intros i Hi _ N. pose proof (parent_lt i ltac:(lia)). specialize (H i).
      assert (N1 : forall k, (0 < k < S (length r))%nat -> g (w :: r) k = g (x :: z :: h) k).
      { intros k Hk. rewrite S1. destruct k; [lia|]. cbn [nth]. rewrite app_nth1 by lia. reflexivity. }
      rewrite !N1 by lia. apply H. apply (f_equal (@length A)) in S1. rewrite app_length in S1. cbn [length] in *. lia. }
    assert (X2 : forall i, (0 < i < S (length r))%nat -> (0 < 0)%nat -> parent i = 0%nat -> le (g (w :: r) (parent 0)) (g (w :: r) i)) by (intros; lia).
    specialize (K X1 X2). destruct (siftup d lt (S (length r)) (w :: r) 0) as [h'|e]; cbn [bindr].
    2:{ destruct K as (a & b & q & P1 & E). exists a, b, (x :: q). split; [|exact E].
        rewrite S1. eapply Permutation_trans; [apply perm_skip, Permutation_sym, Permutation_cons_append|].
        eapply Permutation_trans; [apply perm_skip; exact P1|]. apply Permutation_sym. eapply Permutation_trans; [apply perm_skip, perm_swap|apply perm_swap]. }
    destruct K as [P H']. split; [reflexivity|]. split; [|exact H'].
    rewrite S1. eapply Permutation_trans; [apply Permutation_sym, Permutation_cons_append|exact P].
Qed.
End HeapProofs.
