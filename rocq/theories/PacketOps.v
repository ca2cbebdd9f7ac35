From Verif Require Import BaseLemmas CodecLemmas EthAddrModel EthAddrSpec Enums EthModel ArpModel EthProofs ChecksumModel ChecksumSpec
  ChecksumProofs Ipv4Model Ipv4Proofs Ipv4Proofs2 TransportModel TransportProofs Ipv6Model Ipv6Proofs Ipv6ExtProofs
  IcmpModel IcmpProofs IcmpCodecProofs RipModel RipProofs PacketModel PacketSpec PacketProofs PacketParse.

(** ** Container operations *)
Lemma isinst_is_a h c : isinst h c = true <-> is_a h c.
Proof. unfold isinst, is_a, subcls, cls_eqb. destruct h; cbn [class_of]; destruct c; vm_compute; split; intros; auto;
  try discriminate; repeat match goal with H : _ \/ _ |- _ => destruct H | H : _ /\ _ |- _ => destruct H end; try discriminate; auto. Qed.
Lemma isinst_not h c : isinst h c = false <-> ~ is_a h c.
Proof. rewrite <- isinst_is_a. destruct (isinst h c); split; intros; auto; try discriminate. exfalso. auto. Qed.
Lemma cls_eqb_eq a b : cls_eqb a b = true <-> a = b.
Proof. destruct a, b; vm_compute; split; intros; try discriminate; auto. Qed.

Lemma zlen_cons {A} (x : A) l : zlen (x :: l) = 1 + zlen l.
Proof. unfold zlen. cbn [length]. lia. Qed.
Lemma split_at {A} (l : list A) n : (n <= length l)%nat -> exists a b, l = a ++ b /\ length a = n.
Proof. intros H. exists (firstn n l), (skipn n l). rewrite firstn_skipn, firstn_length. split; auto. lia. Qed.
Lemma split_elt {A} (l : list A) n : (n < length l)%nat -> exists a x b, l = a ++ x :: b /\ length a = n.
Proof. intros H. destruct (split_at l n) as (a & [|x b] & -> & E); [lia| |eauto].
  rewrite app_nil_r in H. lia. Qed.
Lemma set_nth_split {A} (a : list A) x y b : set_nth (length a) y (a ++ x :: b) = a ++ y :: b.
Proof. induction a as [|z a IH]; [reflexivity|]. cbn [length app set_nth]. rewrite IH. reflexivity. Qed.
Lemma del_nth_split {A} (a : list A) x b : del_nth (length a) (a ++ x :: b) = a ++ b.
Proof. unfold del_nth. rewrite firstn_app_exact by auto. f_equal.
  change (a ++ x :: b) with (a ++ [x] ++ b). rewrite app_assoc. apply skipn_app_exact. rewrite app_length. cbn [length]. lia. Qed.
Lemma nth_res_split a x b : nth_res (a ++ x :: b) (length a) = Ok x.
Proof. unfold nth_res. rewrite nth_error_app2 by lia. rewrite Nat.sub_diag. reflexivity. Qed.

Lemma checkidx_cases p i :
  (~ (- zlen p <= i < zlen p) /\ checkidx p i = Err EIndex) \/
  (exists a x b, p = a ++ x :: b /\ denotes (zlen p) i (zlen a) /\ checkidx p i = Ok (length a)).
Proof. unfold checkidx. pose proof (zlen_nonneg p).
  set (j := if i <? 0 then zlen p + i else i). destruct ((0 <=? j) && (j <? zlen p)) eqn:E.
  - right. assert (0 <= j < zlen p) by lia. destruct (split_elt p (Z.to_nat j)) as (a & x & b & Ep & La); [unfold zlen in *; lia|].
    exists a, x, b. split; [exact Ep|]. rewrite La. split; [|reflexivity].
    unfold denotes. assert (zlen a = j) by (unfold zlen at 1; rewrite La; lia). unfold j in *. destruct (i <? 0) eqn:E2; lia.
  - left. split; auto. unfold j in E. destruct (i <? 0) eqn:E2; lia. Qed.

Lemma clampidx_place p i : insert_place (zlen p) i (Z.of_nat (clampidx p i)) /\ (clampidx p i <= length p)%nat.
Proof. unfold clampidx, insert_place. pose proof (zlen_nonneg p). destruct (i <? 0) eqn:E; split; unfold zlen in *; lia. Qed.

Lemma find_cases p c :
  (none_of (fun h => is_a h c) p /\ pkt_get_header p c = None) \/
  (exists a x, first_of (fun h => is_a h c) p a x /\ pkt_get_header p c = Some x).
Proof. induction p as [|h p IH]; [left; split; [constructor|reflexivity]|]. cbn [pkt_get_header]. destruct (isinst h c) eqn:E.
  - right. exists [], h. split; auto. exists p. repeat split; auto. apply isinst_is_a; auto.
  - apply isinst_not in E. destruct IH as [(N & ->)|(a & x & (b & -> & Hx & Ha) & ->)].
    + left. split; auto. constructor; auto.
    + right. exists (h :: a), x. split; auto. exists b. repeat split; auto. Qed.
Lemma name_cases p c :
  (none_of (fun h => class_of h = c) p /\ pkt_by_name p c = None) \/
  (exists a x, first_of (fun h => class_of h = c) p a x /\ pkt_by_name p c = Some x).
Proof. induction p as [|h p IH]; [left; split; [constructor|reflexivity]|]. cbn [pkt_by_name]. destruct (cls_eqb (class_of h) c) eqn:E.
  - right. exists [], h. split; auto. exists p. repeat split; auto. apply cls_eqb_eq; auto.
  - assert (class_of h <> c) by (intros X; apply cls_eqb_eq in X; congruence).
    destruct IH as [(N & ->)|(a & x & (b & -> & Hx & Ha) & ->)].
    + left. split; auto. constructor; auto.
    + right. exists (h :: a), x. split; auto. exists b. repeat split; auto. Qed.
Lemma index_loop_cases v : forall u c,
  (none_of (fun h => is_a h c) v /\ index_loop (length v) (u ++ v) c (zlen u) = Ok (-1)) \/
  (exists a x, first_of (fun h => is_a h c) v a x /\ index_loop (length v) (u ++ v) c (zlen u) = Ok (zlen u + zlen a)).
Proof. induction v as [|h v IH]; intros u c; [left; split; [constructor|reflexivity]|]. cbn [length index_loop].
  pose proof (zlen_nonneg u). assert (G : py_get (u ++ h :: v) (zlen u) = Ok h).
  { unfold py_get. replace (zlen u <? 0) with false by lia.
    replace (Z.to_nat (zlen u)) with (length u) by (unfold zlen; lia). apply nth_res_split. }
  rewrite G. cbn [bindr].
  destruct (isinst h c) eqn:E.
  - right. exists [], h. split; [|f_equal; change (zlen []) with 0; lia]. exists v. repeat split; auto. apply isinst_is_a; auto.
  - apply isinst_not in E. specialize (IH (u ++ [h]) c). rewrite <- app_assoc in IH. cbn [app] in IH.
    replace (zlen (u ++ [h])) with (zlen u + 1) in IH by (rewrite zlen_app; reflexivity).
    destruct IH as [(N & ->)|(a & x & (b & -> & Hx & Ha) & ->)].
    + left. split; auto. constructor; auto.
    + right. exists (h :: a), x. split; [|f_equal; rewrite zlen_cons; lia]. exists b. repeat split; auto. Qed.
Lemma index0_cases p c :
  (none_of (fun h => is_a h c) p /\ pkt_index p c 0 = Ok (-1)) \/
  (exists a x b, p = a ++ x :: b /\ is_a x c /\ none_of (fun h => is_a h c) a /\ pkt_index p c 0 = Ok (zlen a)).
Proof. unfold pkt_index. rewrite Z.sub_0_r. replace (Z.to_nat (zlen p)) with (length p) by (unfold zlen; lia).
  destruct (index_loop_cases p [] c) as [(N & E)|(a & x & (b & Ep & Hx & Ha) & E)].
  - left. split; auto.
  - right. exists a, x, b. split; [exact Ep|]. split; auto. Qed.
Lemma pkt_plus_map q : forall p, pkt_plus p q = p ++ map as_header q.
Proof. unfold pkt_plus. induction q as [|h q IH]; intros p; cbn [fold_left map]; [rewrite app_nil_r; reflexivity|].
  rewrite IH. unfold pkt_add. rewrite <- app_assoc. reflexivity. Qed.

Definition op_ok (o : pkt_op) : Prop := match o with PIndex _ s => 0 <= s | _ => True end.
Theorem step_acts p o : op_ok o -> acts p o (fst (pkt_step p o)) (snd (pkt_step p o)).
Proof. intros Hok. destruct o; cbn [pkt_step].
  - constructor.
  - apply a_prepend.
  - cbn [fst snd]. destruct (clampidx_place p i) as [H1 H2]. unfold pkt_insert. apply a_insert.
    + rewrite firstn_skipn. reflexivity.
    + replace (zlen (firstn (clampidx p i) p)) with (Z.of_nat (clampidx p i)); auto. unfold zlen. rewrite firstn_length. lia.
  - unfold pkt_set. destruct (checkidx_cases p i) as [(N & ->)|(a & x & b & Ep & D & ->)]; cbn [bindr fst snd]; [apply a_set_out; auto|].
    rewrite Ep at 2. rewrite set_nth_split. eapply a_set; eauto.
  - unfold pkt_del. destruct (checkidx_cases p i) as [(N & ->)|(a & x & b & Ep & D & ->)]; cbn [bindr fst snd]; [apply a_del_out; auto|].
    rewrite Ep at 2. rewrite del_nth_split. eapply a_del; eauto.
  - unfold pkt_del_cls. destruct (index0_cases p c) as [(N & ->)|(a & x & b & Ep & Hx & Ha & ->)]; cbn [bindr].
    + cbn [fst snd Z.eqb]. apply a_delc_no; auto.
    + pose proof (zlen_nonneg a). replace (zlen a =? -1) with false by lia. cbn [fst snd].
      replace (Z.to_nat (zlen a)) with (length a) by (unfold zlen; lia). rewrite Ep at 2. rewrite del_nth_split. eapply a_delc; eauto.
  - cbn [fst snd]. rewrite pkt_plus_map. constructor.
  - unfold pkt_get. destruct (checkidx_cases p i) as [(N & ->)|(a & x & b & Ep & D & ->)]; cbn [bindr fst snd]; [apply a_get_out; auto|].
    assert (G : nth_res p (length a) = Ok x) by (rewrite Ep; apply nth_res_split). rewrite G. cbn [bindr fst snd]. eapply a_get; eauto.
  - unfold pkt_get_cls. destruct (index0_cases p c) as [(N & ->)|(a & x & b & Ep & Hx & Ha & ->)]; cbn [bindr].
    + cbn [fst snd Z.eqb]. apply a_getc_no; auto.
    + pose proof (zlen_nonneg a). replace (zlen a =? -1) with false by lia. unfold py_get. replace (zlen a <? 0) with false by lia.
      replace (Z.to_nat (zlen a)) with (length a) by (unfold zlen; lia). 
      assert (G : nth_res p (length a) = Ok x) by (rewrite Ep; apply nth_res_split). rewrite G. cbn [bindr fst snd].
      eapply a_getc. exists b. repeat split; eauto.
  - cbn [fst snd]. destruct (find_cases p c) as [(N & ->)|(a & x & F & ->)]; [apply a_find_no|eapply a_find]; eauto.
  - cbn [fst snd]. destruct (name_cases p c) as [(N & ->)|(a & x & F & ->)]; [apply a_name_no|eapply a_name]; eauto.
  - cbn [fst snd]. unfold pkt_has. destruct (find_cases p c) as [(N & ->)|(a & x & F & ->)]; [apply a_has_no|eapply a_has]; eauto.
  - cbn [op_ok] in Hok. destruct (Z_le_gt_dec start (zlen p)) as [L|L].
    + destruct (split_at p (Z.to_nat start)) as (u & v & Ep & Lu); [unfold zlen in L; lia|].
      assert (start = zlen u) by (unfold zlen; lia). subst start.
      unfold pkt_index. replace (Z.to_nat (zlen p - zlen u)) with (length v).
      2:{ rewrite Ep, zlen_app. unfold zlen. lia. }
      destruct (index_loop_cases v u c) as [(N & E)|(a & x & F & E)]; rewrite <- Ep in E; rewrite E; cbn [bindr fst snd].
      * eapply a_index_no; eauto.
      * eapply a_index; eauto.
    + unfold pkt_index. replace (Z.to_nat (zlen p - start)) with O by lia. cbn [index_loop bindr fst snd]. apply a_index_beyond. lia.
  - constructor. Qed.
Theorem run_acts os : forall p, Forall op_ok os -> acts_all p os (fst (pkt_run p os)) (snd (pkt_run p os)).
Proof. induction os as [|o os IH]; intros p H; [constructor|]. inversion H as [|? ? H1 H2]; subst. cbn [pkt_run].
  pose proof (step_acts p o H1) as S. destruct (pkt_step p o) as [p1 r]. cbn [fst snd] in S.
  specialize (IH p1 H2). destruct (pkt_run p1 os) as [p2 rs]. cbn [fst snd] in *. econstructor; eauto. Qed.

(** The list description has exactly one outcome. *)
Lemma split_unique {A} (a a' : list A) b b' : a ++ b = a' ++ b' -> length a = length a' -> a = a' /\ b = b'.
Proof. revert a'. induction a as [|x a IH]; intros [|x' a'] H L; try discriminate; [auto|].
  cbn [app] in H. apply cons_inj in H as [-> H]. cbn [length] in L. destruct (IH a' H) as [-> ->]; auto. Qed.
Lemma first_unique (P : hdr -> Prop) a : forall a' x x' b b', a ++ x :: b = a' ++ x' :: b' -> P x -> P x' ->
  Forall (fun h => ~ P h) a -> Forall (fun h => ~ P h) a' -> a = a' /\ x = x' /\ b = b'.
Proof. induction a as [|y a IH]; intros [|y' a'] x x' b b' E Hx Hx' Ha Ha'; cbn [app] in E; apply cons_inj in E as [-> E].
  - auto.
  - inversion Ha'; contradiction.
  - inversion Ha; contradiction.
  - inversion Ha; inversion Ha'; subst. destruct (IH a' x x' b b') as (-> & -> & ->); auto. Qed.
Lemma none_first P p a x : none_of P p -> first_of P p a x -> False.
Proof. intros N (b & -> & Hx & _). unfold none_of in N. rewrite Forall_app in N. destruct N as [_ N]. inversion N; contradiction. Qed.
Lemma denotes_inj len i n m : denotes len i n -> denotes len i m -> n = m.
Proof. unfold denotes. lia. Qed.
Lemma insert_place_inj len i n m : 0 <= len -> insert_place len i n -> insert_place len i m -> n = m.
Proof. unfold insert_place. lia. Qed.
Lemma zlen_length {A} (a b : list A) : zlen a = zlen b -> length a = length b.
Proof. unfold zlen. lia. Qed.
Theorem acts_det p o p1 r1 p2 r2 : acts p o p1 r1 -> acts p o p2 r2 -> p1 = p2 /\ r1 = r2.
Proof. intros H1 H2. pose proof (zlen_nonneg p) as Hp.
  inversion H1; subst; inversion H2; subst; try (split; reflexivity);
  try (match goal with D : denotes _ _ _, N : ~ (_ <= _ < _) |- _ => exfalso; unfold denotes in D; lia end);
  try (match goal with N : none_of ?P ?p, F : first_of ?P ?p ?a ?x |- _ => destruct (none_first P p a x N F) end);
  try (match goal with D1 : denotes _ _ (zlen ?a), D2 : denotes _ _ (zlen ?b), E : _ ++ _ = _ ++ _ |- _ =>
         pose proof (zlen_length _ _ (denotes_inj _ _ _ _ D1 D2)) as L; destruct (split_unique _ _ _ _ E (eq_sym L)) as [-> X];
         apply cons_inj in X as [-> ->]; split; reflexivity end);
  try (match goal with F : first_of ?P ?p ?a ?x, G : first_of ?P ?p ?a' ?x' |- _ =>
         destruct F as (? & -> & ? & ?); destruct G as (? & E & ? & ?); destruct (first_unique P _ _ _ _ _ _ E) as (-> & -> & ->); auto end).
  - match goal with D1 : insert_place _ _ (zlen ?a), D2 : insert_place _ _ (zlen ?b), E : _ ++ _ = _ ++ _ |- _ =>
         pose proof (zlen_length _ _ (insert_place_inj _ _ _ _ Hp D1 D2)) as L; destruct (split_unique _ _ _ _ E (eq_sym L)) as [-> ->]; split; reflexivity end.
  - match goal with E : _ ++ _ :: _ = _ ++ _ :: _, N : none_of ?P _ |- _ => destruct (first_unique P _ _ _ _ _ _ E) as (-> & -> & ->); auto end.
  - exfalso. match goal with N : none_of ?P (?a ++ ?x :: ?b) |- _ => destruct (none_first P _ a x N); exists b; auto end.
  - exfalso. match goal with N : none_of ?P (?a ++ ?x :: ?b) |- _ => destruct (none_first P _ a x N); exists b; auto end.
  - destruct (split_unique _ _ _ _ (ltac:(eassumption) : u ++ v = u0 ++ v0)) as [-> ->]; [apply zlen_length; lia|].
    match goal with F : first_of ?P ?p ?a ?x, G : first_of ?P ?p ?a' ?x' |- _ =>
      destruct F as (? & -> & ? & ?); destruct G as (? & E & ? & ?); destruct (first_unique P _ _ _ _ _ _ E) as (-> & -> & ->); auto end.
  - exfalso. destruct (split_unique _ _ _ _ (ltac:(eassumption) : u ++ v = u0 ++ v0)) as [-> ->]; [apply zlen_length; lia|].
    match goal with N : none_of ?P ?p, F : first_of ?P ?p ?a ?x |- _ => destruct (none_first P p a x N F) end.
  - exfalso. rewrite zlen_app in *. pose proof (zlen_nonneg v). lia.
  - exfalso. destruct (split_unique _ _ _ _ (ltac:(eassumption) : u ++ v = u0 ++ v0)) as [-> ->]; [apply zlen_length; lia|].
    match goal with N : none_of ?P ?p, F : first_of ?P ?p ?a ?x |- _ => destruct (none_first P p a x N F) end.
  - exfalso. rewrite zlen_app in *. pose proof (zlen_nonneg v). lia. Qed.
