(** Proofs about the packet buffer, matching, the flow table and the controller connection. *)
From Coq Require Import Permutation.
From Verif Require Import Base BaseLemmas EthAddrModel Enums EthModel ArpModel Ipv4Model TransportModel Ipv6Model IcmpModel PacketModel
  CodecLemmas FieldModel FieldProofs OfModel SwModel SwSpec.

(** ** Packet buffer *)
Section Buf.
Context {P : Type}.
Implicit Types (b : buf P) (s : list P).
Lemma bget_put : forall b k v k', bget (bput b k v) k' = if k =? k' then Some v else bget b k'.
Proof.
  induction b as [|[k0 v0] b IH]; intros k v k'; cbn [bput bget].
  - reflexivity.
  - destruct (Z.eqb_spec k0 k) as [->|Hne]; cbn [bget].
    + destruct (k =? k'); reflexivity.
    + rewrite IH. destruct (Z.eqb_spec k0 k') as [->|]; [|reflexivity].
      destruct (Z.eqb_spec k k'); [lia|reflexivity].
Qed.
Definition keys b := map fst b.
Lemma bget_none : forall b k, bget b k = None <-> ~ In k (keys b).
Proof.
  induction b as [|[k0 v0] b IH]; intros k; cbn [bget keys map fst In]; [tauto|].
  destruct (Z.eqb_spec k0 k) as [->|Hne]; [split; [discriminate|tauto]|]. rewrite IH. unfold keys. tauto.
Qed.
Lemma keys_put : forall b k v, bget b k = None -> keys (bput b k v) = keys b ++ [k].
Proof.
  induction b as [|[k0 v0] b IH]; intros k v H; cbn [bput keys map fst app]; [reflexivity|].
  cbn [bget] in H. destruct (Z.eqb_spec k0 k); [discriminate|]. cbn [map fst]. f_equal. apply IH. exact H.
Qed.
Lemma keys_put_old : forall b k v x, bget b k = Some x -> keys (bput b k v) = keys b.
Proof.
  induction b as [|[k0 v0] b IH]; intros k v x H; cbn [bput keys map fst bget] in *; [discriminate|].
  destruct (Z.eqb_spec k0 k) as [->|]; [reflexivity|]. cbn [map fst]. f_equal. apply (IH k v x). exact H.
Qed.
Lemma keys_del_in : forall b k x, In x (keys (bdel b k)) -> In x (keys b).
Proof.
  induction b as [|[k0 v0] b IH]; intros k x; cbn [bdel keys map fst In]; [tauto|].
  destruct (k0 =? k); cbn [map fst In]; [tauto|]. intros [H|H]; [tauto|]. right. apply (IH k). exact H.
Qed.
Lemma keys_del_nodup : forall b k, NoDup (keys b) -> NoDup (keys (bdel b k)).
Proof.
  induction b as [|[k0 v0] b IH]; intros k; cbn [bdel keys map fst]; [auto|].
  intros H. inversion H; subst. destruct (k0 =? k); [assumption|]. cbn [map fst]. constructor; [|apply IH; assumption].
  intros C. apply keys_del_in in C. contradiction.
Qed.
Lemma bget_del : forall b k k', NoDup (keys b) -> bget (bdel b k) k' = if k =? k' then None else bget b k'.
Proof.
  induction b as [|[k0 v0] b IH]; intros k k' H; cbn [bdel bget keys map fst] in *.
  - destruct (k =? k'); reflexivity.
  - inversion H as [|x l Hn Hd]; subst. destruct (Z.eqb_spec k0 k) as [->|Hne].
    + destruct (Z.eqb_spec k k') as [->|Hk].
      * apply bget_none. exact Hn.
      * reflexivity.
    + cbn [bget]. rewrite IH by exact Hd. destruct (Z.eqb_spec k0 k') as [->|]; [|reflexivity].
      destruct (Z.eqb_spec k k'); [lia|reflexivity].
Qed.
Lemma len_put : forall b k v, zlen (bput b k v) = zlen b + (if match bget b k with Some _ => true | None => false end then 0 else 1).
Proof.
  induction b as [|[k0 v0] b IH]; intros k v; cbn [bput bget]; [reflexivity|].
  destruct (k0 =? k); unfold zlen in *; cbn [length]; [lia|]. specialize (IH k v). lia.
Qed.
Lemma len_del : forall b k, zlen (bdel b k) = zlen b - (if match bget b k with Some _ => true | None => false end then 1 else 0).
Proof.
  induction b as [|[k0 v0] b IH]; intros k; cbn [bdel bget]; [reflexivity|].
  destruct (k0 =? k); unfold zlen in *; cbn [length]; [lia|]. specialize (IH k). lia.
Qed.

(** Invariant of every history. *)
Definition buf_ok (size : Z) b : Prop :=
  NoDup (keys b) /\ Forall (fun k => 1 <= k <= size) (keys b) /\ zlen b <= size.
Lemma buf_step_ok : forall size b o, buf_ok size b -> buf_ok size (fst (buf_step size b o)).
Proof.
  intros size b o [Hn [Hf Hl]]. destruct o as [v|id|id]; cbn [buf_step fst].
  - unfold buf_add. destruct (Z.ltb_spec size (zlen b + 1)) as [Hfull|Hroom]; cbn [fst]; [repeat split; assumption|].
    destruct (bget b (zlen b + 1)) as [x|] eqn:E.
    + split; [|split].
      * rewrite (keys_put_old _ _ _ _ E). exact Hn.
      * rewrite (keys_put_old _ _ _ _ E). exact Hf.
      * rewrite len_put, E. lia.
    + split; [|split].
      * rewrite (keys_put _ _ _ E). apply (Permutation_NoDup (Permutation_cons_append _ _)).
        constructor; [apply bget_none; exact E|exact Hn].
      * rewrite (keys_put _ _ _ E). apply Forall_app. split; [exact Hf|]. constructor; [|constructor].
        assert (0 <= zlen b) by (unfold zlen; lia). lia.
      * rewrite len_put, E. lia.
  - unfold buf_pop. destruct (bget b id) as [x|] eqn:E; cbn [fst]; [|repeat split; assumption]. split; [|split].
    + apply keys_del_nodup. exact Hn.
    + apply Forall_forall. intros k Hk. apply keys_del_in in Hk. rewrite Forall_forall in Hf. auto.
    + rewrite len_del, E. lia.
  - repeat split; assumption.
Qed.
Lemma buf_run_ok : forall size os b, buf_ok size b -> buf_ok size (fst (buf_run size b os)).
Proof.
  intros size os. induction os as [|o os IH]; intros b H; cbn [buf_run fst]; [exact H|].
  pose proof (buf_step_ok size b o H) as H1. destruct (buf_step size b o) as [b1 r]. cbn [fst] in H1.
  specialize (IH b1 H1). destruct (buf_run size b1 os) as [b2 rs]. exact IH.
Qed.

(** Newest-first use behaves as a pile. *)
Fixpoint number (n : Z) s : buf P := match s with [] => [] | v :: s' => (n, v) :: number (n + 1) s' end.
Lemma number_len : forall s n, zlen (number n s) = zlen s.
Proof. induction s as [|v s IH]; intros n; [reflexivity|]. unfold zlen in *. cbn [number length]. specialize (IH (n + 1)). lia. Qed.
Lemma number_get : forall s n k, bget (number n s) k = if (n <=? k) && (k <? n + zlen s) then nth_error s (Z.to_nat (k - n)) else None.
Proof.
  induction s as [|v s IH]; intros n k; cbn [number bget].
  - replace ((n <=? k) && (k <? n + zlen (@nil P))) with false; [reflexivity|].
    unfold zlen. cbn [length]. symmetry. apply andb_false_iff. lia.
  - rewrite IH. assert (L : zlen (v :: s) = zlen s + 1) by (unfold zlen; cbn [length]; lia). rewrite L.
    destruct (Z.eqb_spec n k) as [->|Hne].
    + replace ((k <=? k) && (k <? k + (zlen s + 1))) with true.
      * replace (k - k) with 0 by lia. reflexivity.
      * symmetry. apply andb_true_iff. assert (0 <= zlen s) by (unfold zlen; lia). split; lia.
    + destruct ((n + 1 <=? k) && (k <? n + 1 + zlen s)) eqn:E.
      * apply andb_true_iff in E. replace ((n <=? k) && (k <? n + (zlen s + 1))) with true by (symmetry; apply andb_true_iff; lia).
        replace (Z.to_nat (k - n)) with (S (Z.to_nat (k - (n + 1)))) by lia. reflexivity.
      * apply andb_false_iff in E. replace ((n <=? k) && (k <? n + (zlen s + 1))) with false; [reflexivity|].
        symmetry. apply andb_false_iff. lia.
Qed.
Lemma number_put : forall s n v, bput (number n s) (n + zlen s) v = number n (s ++ [v]).
Proof.
  induction s as [|x s IH]; intros n v; cbn [number bput app].
  - replace (n + zlen (@nil P)) with n by (unfold zlen; cbn [length]; lia). reflexivity.
  - assert (L : zlen (x :: s) = zlen s + 1) by (unfold zlen; cbn [length]; lia). rewrite L.
    assert (0 <= zlen s) by (unfold zlen; lia).
    destruct (Z.eqb_spec n (n + (zlen s + 1))); [lia|]. f_equal.
    replace (n + (zlen s + 1)) with (n + 1 + zlen s) by lia. apply IH.
Qed.
Lemma number_del : forall s n v, bdel (number n (s ++ [v])) (n + zlen s) = number n s.
Proof.
  induction s as [|x s IH]; intros n v; cbn [number bdel app].
  - replace (n + zlen (@nil P)) with n by (unfold zlen; cbn [length]; lia). rewrite Z.eqb_refl. reflexivity.
  - assert (L : zlen (x :: s) = zlen s + 1) by (unfold zlen; cbn [length]; lia). rewrite L.
    assert (0 <= zlen s) by (unfold zlen; lia).
    destruct (Z.eqb_spec n (n + (zlen s + 1))); [lia|]. f_equal.
    replace (n + (zlen s + 1)) with (n + 1 + zlen s) by lia. apply IH.
Qed.
Lemma pile_sim : forall size s o, match o with BPop id => id < 1 \/ zlen s <= id | _ => True end ->
  buf_step size (number 1 s) o = (number 1 (fst (pile_step size s o)), snd (pile_step size s o)).
Proof.
  intros size s o H. assert (N : 0 <= zlen s) by (unfold zlen; lia). destruct o as [v|id|id]; cbn [buf_step pile_step].
  - unfold buf_add. rewrite number_len. destruct (Z.ltb_spec size (zlen s + 1)); destruct (Z.ltb_spec (zlen s) size); try lia; cbn [fst snd].
    + reflexivity.
    + replace (zlen s + 1) with (1 + zlen s) by lia. rewrite number_put. reflexivity.
  - unfold buf_pop. rewrite number_get. destruct ((1 <=? id) && (id <=? zlen s)) eqn:E.
    + apply andb_true_iff in E. assert (id = zlen s) by lia. subst id.
      replace ((1 <=? zlen s) && (zlen s <? 1 + zlen s)) with true by (symmetry; apply andb_true_iff; lia).
      destruct (@exists_last _ s) as [s' [v Es]]. { intros ->. cbn in E. lia. } subst s.
      assert (L : zlen (s' ++ [v]) = zlen s' + 1) by (unfold zlen; rewrite app_length; cbn [length]; lia). rewrite L.
      replace (Z.to_nat (zlen s' + 1 - 1)) with (length s') by (unfold zlen; lia).
      rewrite nth_error_app2, Nat.sub_diag by lia. cbn [nth_error fst snd].
      f_equal. replace (zlen s' + 1) with (1 + zlen s') by lia. rewrite number_del. f_equal.
      rewrite firstn_app, firstn_all, Nat.sub_diag, firstn_O, app_nil_r.
      replace (Z.to_nat (1 + zlen s')) with (length (s' ++ [v])) by (rewrite app_length; unfold zlen; cbn [length]; lia).
      rewrite skipn_all, app_nil_r. reflexivity.
    + replace ((1 <=? id) && (id <? 1 + zlen s)) with false.
      * reflexivity.
      * symmetry. apply andb_false_iff in E. apply andb_false_iff. lia.
  - unfold buf_lookup. rewrite number_get. cbn [fst snd].
    replace (id <? 1 + zlen s) with (id <=? zlen s); [reflexivity|].
    destruct (Z.leb_spec id (zlen s)); destruct (Z.ltb_spec id (1 + zlen s)); lia.
Qed.
Lemma pile_run_sim : forall size os s, newest_first size s os ->
  buf_run size (number 1 s) os = (number 1 (fst (pile_run size s os)), snd (pile_run size s os)).
Proof.
  intros size os. induction os as [|o os IH]; intros s H; cbn [buf_run pile_run]; [reflexivity|].
  destruct H as [H1 H2]. rewrite (pile_sim size s o H1). destruct (pile_step size s o) as [s1 r]. cbn [fst snd] in *.
  rewrite (IH s1 H2). destruct (pile_run size s1 os) as [s2 rs]. reflexivity.
Qed.
End Buf.
