(** Proofs about emulated sockets. *)
From Verif Require Import BaseLemmas CodecLemmas Enums SockModel SockSpec.

Lemma bytes_same_eq a : forall b, bytes_same a b = true <-> a = b.
Proof. induction a as [|x a IH]; intros [|y b]; cbn [bytes_same]; try (split; congruence). rewrite andb_true_iff, IH, Z.eqb_eq. split; [intros [-> ->]; reflexivity|intros [= -> ->]; auto]. Qed.
Lemma key_spec a b : reflect (a = b) (key_same a b).
Proof. apply iff_reflect. destruct a as [[p i] n], b as [[p' i'] n']. unfold key_same. rewrite !andb_true_iff, bytes_same_eq, !Z.eqb_eq. split; [intros [= -> -> ->]; auto|intros [[-> ->] ->]; reflexivity]. Qed.
Definition keys (r : registry) : list key := map fst r.
Lemma rget_In k v r : rget k r = Some v -> In (k, v) r.
Proof. induction r as [|[k' v'] r IH]; cbn [rget]; [discriminate|]. destruct (key_spec k k') as [->|]; [intros [= ->]; left; reflexivity|right; auto]. Qed.
Lemma rget_None k r : rget k r = None <-> ~ In k (keys r).
Proof. induction r as [|[k' v'] r IH]; cbn [rget keys map fst In]; [tauto|]. destruct (key_spec k k') as [->|Hn]; [split; [discriminate|tauto]|]. fold (keys r). rewrite IH. split; intros H; [intros [E|E]; [congruence|auto]|tauto]. Qed.
Lemma In_rget k v r : NoDup (keys r) -> In (k, v) r -> rget k r = Some v.
Proof. induction r as [|[k' v'] r IH]; cbn [rget keys map fst]; [contradiction|]. intros N. inversion N; subst. intros [E|E]; destruct (key_spec k k') as [->|Hn]; try congruence; auto.
  exfalso. apply H1. apply in_map_iff. exists (k', v). auto. Qed.
Lemma rset_new k v r : ~ In k (keys r) -> rset k v r = r ++ [(k, v)].
Proof. induction r as [|[k' v'] r IH]; cbn [rset keys map fst In app]; [reflexivity|]. intros H. destruct (key_spec k k') as [->|Hn]; [exfalso; apply H; auto|]. rewrite IH; [reflexivity|]. tauto. Qed.
Lemma rdel_In k r : NoDup (keys r) -> forall k2 v, In (k2, v) (rdel k r) <-> In (k2, v) r /\ k2 <> k.
Proof. induction r as [|[k' v'] r IH]; intros N k2 v; cbn [rdel]; [cbn; tauto|]. cbn [keys map fst] in N. inversion N as [|? ? N1 N2]; subst. destruct (key_spec k k') as [->|Hn].
  - cbn [In]. split; [intros H; split; [auto|]; intros ->; apply N1; apply in_map_iff; exists (k', v); auto|intros [[E|E] D]; [congruence|exact E]].
  - cbn [In]. rewrite (IH N2). split; [intros [E|[E D]]; [split; [auto|congruence]|auto]|intros [[E|E] D]; auto]. Qed.
Lemma rdel_NoDup k r : NoDup (keys r) -> NoDup (keys (rdel k r)).
Proof. induction r as [|[k' v'] r IH]; cbn [rdel]; [auto|]. cbn [keys map fst]. intros N. inversion N as [|? ? N1 N2]; subst. destruct (key_spec k k'); [exact N2|]. cbn [map fst]. constructor; [|apply IH; exact N2].
  intros I. apply in_map_iff in I as ([k2 v] & E & I). cbn [fst] in E. subst k2. apply (rdel_In k r N2) in I. apply N1. apply in_map_iff. exists (k', v). tauto. Qed.

Lemma keys_snoc r k v : NoDup (keys r) -> ~ In k (keys r) -> NoDup (keys (r ++ [(k, v)])).
Proof. intros N I. unfold keys. rewrite map_app. cbn [map fst]. fold (keys r). apply NoDup_rev in N. rewrite <- (rev_involutive (keys r ++ [k])). apply NoDup_rev. rewrite rev_app_distr. cbn [rev app]. constructor; [|exact N]. intros J. apply I. apply in_rev. exact J. Qed.

Lemma upd_length {A} n (x : A) : forall l, length (upd n x l) = length l.
Proof. induction n as [|n IH]; intros [|y l]; cbn [upd length]; auto. Qed.
Lemma upd_same {A} (x : A) l : forall n, (n < length l)%nat -> nth_error (upd n x l) n = Some x.
Proof. induction l as [|y l IH]; intros [|n] H; cbn [upd nth_error length] in *; try lia; [reflexivity|]. apply IH. lia. Qed.
Lemma upd_other {A} (x : A) l : forall n m, n <> m -> nth_error (upd n x l) m = nth_error l m.
Proof. induction l as [|y l IH]; intros [|n] [|m] H; cbn [upd nth_error]; try reflexivity; try congruence. apply IH. congruence. Qed.
Lemma upd_out {A} (x : A) l : forall n, (length l <= n)%nat -> upd n x l = l.
Proof. induction l as [|y l IH]; intros [|n] H; cbn [upd length] in *; try reflexivity; try lia. rewrite IH by lia. reflexivity. Qed.
Lemma nth_nth_error {A} (l : list A) n d : nth n l d = match nth_error l n with Some x => x | None => d end.
Proof. revert n. induction l as [|y l IH]; intros [|n]; cbn [nth nth_error]; auto. Qed.
Lemma nth_error_snoc {A} (l : list A) x : nth_error (l ++ [x]) (length l) = Some x.
Proof. rewrite nth_error_app2 by lia. rewrite Nat.sub_diag. reflexivity. Qed.
Lemma upd_snoc {A} (l : list A) x y : upd (length l) y (l ++ [x]) = l ++ [y].
Proof. induction l as [|z l IH]; cbn [app length upd]; [reflexivity|]. rewrite IH. reflexivity. Qed.

(** ** Order of data, under every interleaving *)
Lemma pending_with_queue q l n s : (q < length (n_queues n))%nat -> pending (with_queue q l n) s = if Nat.eqb q s then l else pending n s.
Proof. intros H. unfold pending, with_queue. cbn [n_queues]. rewrite !nth_nth_error. destruct (Nat.eqb_spec q s) as [->|Hn]; [rewrite upd_same by exact H; reflexivity|rewrite upd_other by exact Hn; reflexivity]. Qed.
Lemma nth_error_lt {A} (l : list A) n x : nth_error l n = Some x -> (n < length l)%nat.
Proof. intros H. apply nth_error_Some. congruence. Qed.
Lemma pending_nth n q l : nth_error (n_queues n) q = Some l -> pending n q = l.
Proof. intros H. unfold pending. rewrite nth_nth_error, H. reflexivity. Qed.
(** One action: what it does to the pending data of a socket. *)
Lemma act_pending n a n' r s : do_act n a = (n', r) -> gots s [(a, r)] ++ pending n' s = pending n s ++ puts s [(a, r)].
Proof. intros H. assert (K : n_queues n' = n_queues n -> gots s [(a, r)] = [] -> puts s [(a, r)] = [] -> gots s [(a, r)] ++ pending n' s = pending n s ++ puts s [(a, r)]).
  { intros E -> ->. rewrite app_nil_r. unfold pending. rewrite E. reflexivity. }
  destruct a; cbn [do_act] in H.
  - unfold a_new, start in H. destruct (negb (_ || _)); [injection H as <- <-; apply K; reflexivity|]. destruct (negb (typ =? 2)); [injection H as <- <-; apply K; reflexivity|].
    destruct (_ || _)%bool; [injection H as <- <-; apply K; reflexivity|]. destruct fw; injection H as <- <-; [|apply K; reflexivity].
    cbn [gots puts app]. rewrite app_nil_r. unfold pending. cbn [with_flights n_queues]. rewrite !nth_nth_error. destruct (Nat.lt_trichotomy s (length (n_queues n))) as [L|[->|L]].
    + rewrite nth_error_app1 by exact L. reflexivity.
    + rewrite nth_error_snoc. assert (E : nth_error (n_queues n) (length (n_queues n)) = None) by (apply nth_error_None; lia). rewrite E. reflexivity.
    + assert (E : nth_error (n_queues n) s = None) by (apply nth_error_None; lia). assert (E2 : nth_error (n_queues n ++ [[]]) s = None) by (apply nth_error_None; rewrite app_length; cbn [length]; lia). rewrite E, E2. reflexivity.
  - unfold a_reg in H. destruct (flying i n) as [[]|]; try (injection H as <- <-; apply K; reflexivity). destruct (nth_error (n_socks n) s0); [|injection H as <- <-; apply K; reflexivity]. destruct (sockid s1); injection H as <- <-; apply K; reflexivity.
  - unfold a_bind, start in H. destruct (nth_error (n_socks n) s0); [|injection H as <- <-; apply K; reflexivity]. destruct (in_use _ _ _); [injection H as <- <-; apply K; reflexivity|]. destruct (sockid s1); [|injection H as <- <-; apply K; reflexivity].
    destruct (normalize a) as [[? ?]|]; injection H as <- <-; apply K; reflexivity.
  - unfold a_rebind in H. destruct (flying i n) as [[]|]; try (injection H as <- <-; apply K; reflexivity). destruct fw; [|injection H as <- <-; apply K; reflexivity].
    destruct (rget old (n_reg n)), (nth_error (n_socks n) s0); try (injection H as <- <-; apply K; reflexivity). destruct (sockid s1); injection H as <- <-; apply K; reflexivity.
  - unfold a_close in H. destruct (nth_error (n_socks n) s0); [|injection H as <- <-; apply K; reflexivity]. destruct (sockid s1); injection H as <- <-; apply K; reflexivity.
  - unfold a_connect in H. destruct (nth_error (n_socks n) s0); [|injection H as <- <-; apply K; reflexivity]. destruct (normalize a); injection H as <- <-; apply K; reflexivity.
  - unfold a_send, put_down in H. destruct (nth_error (n_socks n) s0); [|injection H as <- <-; apply K; reflexivity]. destruct (k_remote s1); injection H as <- <-; apply K; reflexivity.
  - unfold a_sendto, put_down in H. destruct (nth_error (n_socks n) s0); [|injection H as <- <-; apply K; reflexivity]. destruct (normalize a); injection H as <- <-; apply K; reflexivity.
  - unfold a_recv in H. destruct (nth_error (n_queues n) s0) as [q|] eqn:E; [|injection H as <- <-; apply K; reflexivity]. destruct (bad_wait s0 n); [injection H as <- <-; apply K; reflexivity|]. destruct q as [|m l]; injection H as <- <-; [apply K; reflexivity|].
    cbn [gots puts]. rewrite app_nil_r, pending_with_queue by (eapply nth_error_lt; exact E). destruct (Nat.eqb_spec s0 s) as [->|]; [|reflexivity]. rewrite (pending_nth _ _ _ E). reflexivity.
  - unfold a_settimeout in H. destruct (nth_error (n_socks n) s0); injection H as <- <-; apply K; reflexivity.
  - unfold a_setblocking in H. destruct (nth_error (n_socks n) s0); injection H as <- <-; apply K; reflexivity.
  - injection H as <- <-; apply K; reflexivity.
  - unfold a_deliver, start in H. destruct (enum_of IPProtocols proto); [|injection H as <- <-; apply K; reflexivity]. destruct (normalize local); [|injection H as <- <-; apply K; reflexivity]. destruct (normalize remote); [|injection H as <- <-; apply K; reflexivity].
    destruct (rget _ _); injection H as <- <-; apply K; reflexivity.
  - unfold a_wild in H. destruct (flying i n) as [[]|]; try (injection H as <- <-; apply K; reflexivity). destruct (rget _ _); injection H as <- <-; apply K; reflexivity.
  - unfold a_put in H. destruct (flying i n) as [[]|]; try (injection H as <- <-; apply K; reflexivity). destruct (nth_error (n_queues n) q) as [l|] eqn:E; injection H as <- <-; [|apply K; reflexivity].
    cbn [gots puts app]. rewrite pending_with_queue by (cbn [stop with_flights n_queues]; eapply nth_error_lt; exact E). destruct (Nat.eqb_spec q s) as [->|]; [rewrite (pending_nth _ _ _ E); reflexivity|rewrite app_nil_r; reflexivity].
  - unfold a_recv_app in H. destruct (n_down n) as [|[f d] t]; injection H as <- <-; apply K; reflexivity.
  - unfold a_scan, start in H. destruct (nth_error (n_socks n) _); injection H as <- <-; apply K; reflexivity.
  - unfold a_scanned in H. destruct (flying i n) as [[]|] eqn:F; try (injection H as <- <-; apply K; reflexivity). destruct (Nat.eqb _ _); injection H as <- <-; [apply K; reflexivity|apply K; reflexivity]. Qed.
Lemma puts_cons s x l : puts s (x :: l) = puts s [x] ++ puts s l.
Proof. destruct x as [a []]; cbn [puts]; try reflexivity. destruct (Nat.eqb q s); reflexivity. Qed.
Lemma gots_cons s x l : gots s (x :: l) = gots s [x] ++ gots s l.
Proof. destruct x as [a r]. cbn [gots]. destruct a; try reflexivity. destruct r; try reflexivity. destruct (Nat.eqb s0 s); reflexivity. Qed.
Lemma run_pending l : forall n n' log s, acts_run n l = (n', log) -> gots s log ++ pending n' s = pending n s ++ puts s log.
Proof. induction l as [|a l IH]; intros n n' log s H; cbn [acts_run] in H.
  - injection H as <- <-. cbn [gots puts]. rewrite app_nil_r. reflexivity.
  - destruct (do_act n a) as [n1 r] eqn:A. destruct (acts_run n1 l) as [n2 l2] eqn:B. injection H as <- <-. rewrite gots_cons, puts_cons, <- app_assoc, (IH _ _ _ s B), !app_assoc, (act_pending _ _ _ _ s A). reflexivity. Qed.
Theorem upward_order l n' log s : acts_run snet_new l = (n', log) -> puts s log = gots s log ++ pending n' s.
Proof. intros H. rewrite (run_pending _ _ _ _ s H). unfold pending at 1. cbn [snet_new n_queues nth]. destruct s; reflexivity. Qed.
Lemma act_down n a n' r : do_act n a = (n', r) -> to_stack [(a, r)] ++ n_down n' = n_down n ++ sent [(a, r)].
Proof. intros H. assert (K : n_down n' = n_down n -> to_stack [(a, r)] = [] -> sent [(a, r)] = [] -> to_stack [(a, r)] ++ n_down n' = n_down n ++ sent [(a, r)]).
  { intros -> -> ->. rewrite app_nil_r. reflexivity. }
  destruct a; cbn [do_act] in H.
  - unfold a_new, start in H. repeat match type of H with context [if ?b then _ else _] => destruct b end; injection H as <- <-; apply K; reflexivity.
  - unfold a_reg in H. destruct (flying i n) as [[]|]; try (injection H as <- <-; apply K; reflexivity). destruct (nth_error (n_socks n) s); [|injection H as <- <-; apply K; reflexivity]. destruct (sockid s0); injection H as <- <-; apply K; reflexivity.
  - unfold a_bind, start in H. destruct (nth_error (n_socks n) s); [|injection H as <- <-; apply K; reflexivity]. destruct (in_use _ _ _); [injection H as <- <-; apply K; reflexivity|]. destruct (sockid s0); [|injection H as <- <-; apply K; reflexivity].
    destruct (normalize a) as [[? ?]|]; injection H as <- <-; apply K; reflexivity.
  - unfold a_rebind in H. destruct (flying i n) as [[]|]; try (injection H as <- <-; apply K; reflexivity). destruct fw; [|injection H as <- <-; apply K; reflexivity].
    destruct (rget old (n_reg n)), (nth_error (n_socks n) s); try (injection H as <- <-; apply K; reflexivity). destruct (sockid s0); injection H as <- <-; apply K; reflexivity.
  - unfold a_close in H. destruct (nth_error (n_socks n) s); [|injection H as <- <-; apply K; reflexivity]. destruct (sockid s0); injection H as <- <-; apply K; reflexivity.
  - unfold a_connect in H. destruct (nth_error (n_socks n) s); [|injection H as <- <-; apply K; reflexivity]. destruct (normalize a); injection H as <- <-; apply K; reflexivity.
  - unfold a_send, put_down in H. destruct (nth_error (n_socks n) s); [|injection H as <- <-; apply K; reflexivity]. destruct (k_remote s0); injection H as <- <-; [reflexivity|apply K; reflexivity].
  - unfold a_sendto, put_down in H. destruct (nth_error (n_socks n) s); [|injection H as <- <-; apply K; reflexivity]. destruct (normalize a); injection H as <- <-; [reflexivity|apply K; reflexivity].
  - unfold a_recv in H. destruct (nth_error (n_queues n) s) as [q|]; [destruct (bad_wait s n); [|destruct q as [|m l]]|]; injection H as <- <-; apply K; reflexivity.
  - unfold a_settimeout in H. destruct (nth_error (n_socks n) s); injection H as <- <-; apply K; reflexivity.
  - unfold a_setblocking in H. destruct (nth_error (n_socks n) s); injection H as <- <-; apply K; reflexivity.
  - injection H as <- <-; apply K; reflexivity.
  - unfold a_deliver, start in H. destruct (enum_of IPProtocols proto); [|injection H as <- <-; apply K; reflexivity]. destruct (normalize local); [|injection H as <- <-; apply K; reflexivity]. destruct (normalize remote); [|injection H as <- <-; apply K; reflexivity].
    destruct (rget _ _); injection H as <- <-; apply K; reflexivity.
  - unfold a_wild in H. destruct (flying i n) as [[]|]; try (injection H as <- <-; apply K; reflexivity). destruct (rget _ _); injection H as <- <-; apply K; reflexivity.
  - unfold a_put in H. destruct (flying i n) as [[]|]; try (injection H as <- <-; apply K; reflexivity). destruct (nth_error (n_queues n) q) as [l|] eqn:E; injection H as <- <-; apply K; reflexivity.
  - unfold a_recv_app in H. destruct (n_down n) as [|[f d] t] eqn:E; injection H as <- <-; cbn [to_stack sent app with_down n_down]; rewrite ?E, ?app_nil_r; reflexivity.
  - unfold a_scan, start in H. destruct (nth_error (n_socks n) _); injection H as <- <-; apply K; reflexivity.
  - unfold a_scanned in H. destruct (flying i n) as [[]|] eqn:F; try (injection H as <- <-; apply K; reflexivity). destruct (Nat.eqb _ _); injection H as <- <-; apply K; reflexivity. Qed.
Lemma sent_cons x l : sent (x :: l) = sent [x] ++ sent l.
Proof. destruct x as [a []]; reflexivity. Qed.
Lemma to_stack_cons x l : to_stack (x :: l) = to_stack [x] ++ to_stack l.
Proof. destruct x as [a []]; reflexivity. Qed.
Lemma run_down l : forall n n' log, acts_run n l = (n', log) -> to_stack log ++ n_down n' = n_down n ++ sent log.
Proof. induction l as [|a l IH]; intros n n' log H; cbn [acts_run] in H.
  - injection H as <- <-. cbn [to_stack sent]. rewrite app_nil_r. reflexivity.
  - destruct (do_act n a) as [n1 r] eqn:A. destruct (acts_run n1 l) as [n2 l2] eqn:B. injection H as <- <-. rewrite to_stack_cons, sent_cons, <- app_assoc, (IH _ _ _ B), !app_assoc, (act_down _ _ _ _ A). reflexivity. Qed.
Theorem downward_order l n' log : acts_run snet_new l = (n', log) -> sent log = to_stack log ++ n_down n'.
Proof. intros H. rewrite (run_down _ _ _ _ H). reflexivity. Qed.

(** ** Sequential calls *)
Record good (lv : list nat) (n : snet) : Prop := {
  g_keys : NoDup (keys (n_reg n));
  g_reg : forall k s, In (k, s) (n_reg n) <-> In s lv /\ bound_to n s = Some k;
  g_len : length (n_queues n) = length (n_socks n);
  g_live : forall s, In s lv -> exists k, nth_error (n_socks n) s = Some k /\ In (k_proto k) IPProtocols;
  g_nodup : NoDup lv;
  g_ports : forall s s' k k', In s lv -> In s' lv -> bound_to n s = Some k -> bound_to n s' = Some k' -> snd k = snd k' -> s = s' }.
Lemma emuports_In r p : In p (emuports r) <-> exists k s, In (k, s) r /\ snd k = p.
Proof. unfold emuports. rewrite in_map_iff. split; [intros ([k s] & E & I); exists k, s; auto|intros (k & s & I & E); exists (k, s); auto]. Qed.
Lemma sockid_ok k : In (k_proto k) IPProtocols -> sockid k = Ok (k_proto k, k_ip k, k_port k).
Proof. intros H. unfold sockid. assert (E : enum_of IPProtocols (k_proto k) = Ok (k_proto k)) by (apply enum_of_ok; auto). rewrite E. reflexivity. Qed.
Lemma sockid_inv k id : sockid k = Ok id -> In (k_proto k) IPProtocols /\ id = (k_proto k, k_ip k, k_port k).
Proof. unfold sockid. intros H. destruct (enum_of _ _) as [p|] eqn:E; [|discriminate]. apply enum_of_ok in E as [-> I]. cbn [bindr] in H. apply ok_inj in H. auto. Qed.
Lemma zmem_false z l : zmem z l = false <-> ~ In z l.
Proof. rewrite <- zmem_In. destruct (zmem z l); split; congruence. Qed.
Lemma bound_sock n s k : nth_error (n_socks n) s = Some k -> bound_to n s = Some (k_proto k, k_ip k, k_port k).
Proof. unfold bound_to. intros ->. reflexivity. Qed.
(** Changes that keep everything the invariant speaks about. *)
Lemma good_same lv n n' : good lv n -> n_reg n' = n_reg n -> length (n_queues n') = length (n_queues n) -> length (n_socks n') = length (n_socks n) ->
  (forall s, bound_to n' s = bound_to n s) -> good lv n'.
Proof. intros [G1 G2 G3 G4 G5 G6] R Q S B. constructor; rewrite ?R; auto; [|congruence| |].
  - intros k s. rewrite B. apply G2.
  - intros s H. destruct (G4 s H) as (k & K1 & K2). assert (E : bound_to n' s = Some (k_proto k, k_ip k, k_port k)) by (rewrite B; apply bound_sock; exact K1).
    unfold bound_to in E. destruct (nth_error (n_socks n') s) as [k'|]; [|discriminate]. exists k'. split; [reflexivity|]. injection E as E _ _. congruence.
  - intros s s' k k'. rewrite !B. apply G6. Qed.
Lemma bound_upd n s k k' : nth_error (n_socks n) s = Some k -> k_proto k' = k_proto k -> k_ip k' = k_ip k -> k_port k' = k_port k -> forall s', bound_to (with_sock s k' n) s' = bound_to n s'.
Proof. intros H E1 E2 E3 s'. unfold bound_to, with_sock. cbn [n_socks]. destruct (Nat.eq_dec s s') as [<-|Hn]; [|rewrite upd_other by exact Hn; reflexivity].
  rewrite upd_same by (eapply nth_error_lt; exact H). rewrite H. cbn [option_map]. rewrite E1, E2, E3. reflexivity. Qed.
Lemma nth_queue_upd lv n n' q l : good lv n -> n' = with_queue q l n -> good lv n'.
Proof. intros G ->. eapply good_same; [exact G|reflexivity|cbn [with_queue n_queues]; apply upd_length|reflexivity|reflexivity]. Qed.
Lemma remove_In_iff s x l : In x (remove Nat.eq_dec s l) <-> In x l /\ x <> s.
Proof. split; [intros H; apply in_remove in H; exact H|intros [H1 H2]; apply in_in_remove; auto]. Qed.
Lemma remove_NoDup s l : NoDup l -> NoDup (remove Nat.eq_dec s l).
Proof. induction 1 as [|x l H N IH]; cbn [remove]; [constructor|]. destruct (Nat.eq_dec s x); [exact IH|]. constructor; [rewrite remove_In_iff; tauto|exact IH]. Qed.
Lemma flying_new n f : flying (length (n_fl n)) (with_flights (n_fl n ++ [Some f]) n) = Some f.
Proof. unfold flying. cbn [with_flights n_fl]. rewrite nth_error_snoc. reflexivity. Qed.
Lemma deliver_split lv n p l r d n' res : good lv n -> do_op n (SDeliver p l r d) = (n', res) ->
  good lv n' /\ match enum_of IPProtocols p, normalize l, normalize r with
  | Ok p', Ok l', Ok r' =>
      let m := (l', r', d) in
      (exists s, In s lv /\ bound_to n s = Some (p', fst l', snd l') /\ res = RPut s m /\ goes_only_to s m n n') \/
      ((forall s, In s lv -> bound_to n s <> Some (p', fst l', snd l')) /\
        ((exists s, In s lv /\ bound_to n s = Some (p', any_ip, snd l') /\ res = RPut s m /\ goes_only_to s m n n') \/
         ((forall s, In s lv -> bound_to n s <> Some (p', any_ip, snd l')) /\ res = RBool false /\ nothing_moves n n')))
  | _, _, _ => n' = n /\ exists e, res = RExn e
  end.
Proof. intros G H. cbn [do_op do_act] in H. unfold a_deliver in H. destruct (enum_of IPProtocols p) as [p'|]; [|injection H as <- <-; eauto].
  destruct (normalize l) as [l'|]; [|injection H as <- <-; eauto]. destruct (normalize r) as [r'|]; [|injection H as <- <-; eauto].
  assert (PutG : forall s n2, In s lv -> n2 = with_flights (upd (length (n_fl n)) None (n_fl n ++ [Some (InPut s (l', r', d))])) n ->
    good lv (with_queue s (pending n s ++ [(l', r', d)]) n2) /\ goes_only_to s (l', r', d) n (with_queue s (pending n s ++ [(l', r', d)]) n2)).
  { intros s n2 Hs ->. destruct (g_live _ _ G s Hs) as (k & K & _). apply nth_error_lt in K. rewrite <- (g_len _ _ G) in K. split.
    - eapply good_same; [exact G|reflexivity|cbn [with_queue with_flights n_queues]; apply upd_length|reflexivity|reflexivity].
    - split; [rewrite pending_with_queue by exact K; rewrite Nat.eqb_refl; reflexivity|]. split; [|split; reflexivity]. intros s' Hn. rewrite pending_with_queue by exact K. destruct (Nat.eqb_spec s s'); [congruence|reflexivity]. }
  assert (Q : forall s, In s lv -> nth_error (n_queues n) s = Some (pending n s)).
  { intros s Hs. destruct (g_live _ _ G s Hs) as (k & K & _). apply nth_error_lt in K. rewrite <- (g_len _ _ G) in K. unfold pending. rewrite nth_nth_error. destruct (nth_error (n_queues n) s) eqn:E; [reflexivity|]. apply nth_error_None in E. lia. }
  destruct (rget (p', fst l', snd l') (n_reg n)) as [q|] eqn:E1; unfold start in H; cbn [snd fst] in H; rewrite flying_new in H.
  - apply rget_In in E1. apply (g_reg _ _ G) in E1 as [E1 E2]. unfold do_act, a_put in H. rewrite flying_new in H. cbn [with_flights n_queues] in H. rewrite (Q q E1) in H. injection H as <- <-.
    destruct (PutG q _ E1 eq_refl) as [P1 P2]. split; [exact P1|]. left. exists q. auto.
  - assert (N1 : forall s, In s lv -> bound_to n s <> Some (p', fst l', snd l')).
    { intros s Hs Hb. apply rget_None in E1. apply E1. apply in_map_iff. exists ((p', fst l', snd l'), s). split; [reflexivity|]. apply (g_reg _ _ G). auto. }
    unfold then_act, do_act in H. unfold a_wild in H. rewrite flying_new in H. cbn [fst snd with_flights n_reg n_fl] in H.
    destruct (rget (p', any_ip, snd l') (n_reg n)) as [q|] eqn:E2; cbn [snd fst] in H.
    + apply rget_In in E2. apply (g_reg _ _ G) in E2 as [E2 E3]. rewrite upd_snoc in H. unfold a_put, flying in H. cbn [with_flights n_fl] in H. rewrite nth_error_snoc in H. cbn [n_queues with_flights] in H. rewrite (Q q E2) in H.
      injection H as <- <-. destruct (PutG q _ E2 eq_refl) as [P1 P2]. split; [exact P1|]. right. split; [exact N1|]. left. exists q. auto.
    + injection H as <- <-. split; [eapply good_same; [exact G|reflexivity..]|]. right. split; [exact N1|]. right. split; [|split; [reflexivity|repeat split]].
      intros s Hs Hb. apply rget_None in E2. apply E2. apply in_map_iff. exists ((p', any_ip, snd l'), s). split; [reflexivity|]. apply (g_reg _ _ G). auto. Qed.
Lemma good_op lv n o n' r : good lv n -> tidy_op lv o -> do_op n o = (n', r) -> good (open_after lv o r) n'.
Proof. intros G T H. destruct o as [fam typ proto port sys fw|s a sys fw|p l rm d|a].
  - cbn [do_op do_act] in H. unfold a_new in H. destruct (negb (_ || _)); [injection H as <- <-; exact G|]. destruct (negb (typ =? 2)); [injection H as <- <-; exact G|].
    destruct (negb _ || zmem port sys || zmem port (emuports (n_reg n)))%bool eqn:U; [injection H as <- <-; exact G|]. destruct fw; [|injection H as <- <-; exact G].
    apply orb_false_iff in U as [_ U]. apply zmem_false in U. rewrite emuports_In in U. unfold then_act, start in H. cbn [fst snd n_fl with_flights do_act] in H.
    set (k := mkSock (if proto =? 0 then 17 else proto) any_ip port None (n_default n) true) in *. unfold a_reg, flying in H. cbn [with_flights n_fl n_socks] in H. rewrite !nth_error_snoc in H.
    assert (B : forall s, (s < length (n_socks n))%nat -> nth_error (n_socks n ++ [k]) s = nth_error (n_socks n) s) by (intros s L; apply nth_error_app1; exact L).
    assert (L : forall s, In s lv -> (s < length (n_socks n))%nat) by (intros s Hs; destruct (g_live _ _ G s Hs) as (x & X & _); eapply nth_error_lt; exact X).
    destruct (sockid k) as [id|] eqn:Sk.
    + injection H as <- <-. apply sockid_inv in Sk as [Pk ->]. cbn [open_after]. unfold stop. cbn [with_reg with_flights n_reg n_fl].
      assert (Nk : ~ In (k_proto k, k_ip k, k_port k) (keys (n_reg n))).
      { intros I. apply in_map_iff in I as ([k2 s2] & E & I). cbn [fst] in E. subst k2. apply U. exists (k_proto k, k_ip k, k_port k), s2. split; [exact I|reflexivity]. }
      rewrite rset_new by exact Nk. constructor; cbn [n_reg n_queues n_socks with_reg with_flights].
      * apply keys_snoc; [apply (g_keys _ _ G)|exact Nk].
      * intros k2 s2. rewrite in_app_iff, (g_reg _ _ G). cbn [In]. unfold bound_to. cbn [n_socks with_reg with_flights]. split.
        -- intros [[I1 I2]|[[= <- <-]|[]]]; [split; [auto|]; rewrite B by (apply L; exact I1); exact I2|split; [auto|]; rewrite nth_error_snoc; reflexivity].
        -- intros [[<-|I1] I2]; [right; left; rewrite nth_error_snoc in I2; injection I2 as <-; reflexivity|left; split; [exact I1|]; rewrite B in I2 by (apply L; exact I1); exact I2].
      * rewrite !app_length, (g_len _ _ G). reflexivity.
      * intros s [<-|Hs]; [exists k; split; [apply nth_error_snoc|exact Pk]|]. rewrite B by (apply L; exact Hs). apply (g_live _ _ G). exact Hs.
      * constructor; [|apply (g_nodup _ _ G)]. intros I. apply L in I. lia.
      * assert (U2 : forall s2 k2, In s2 lv -> bound_to n s2 = Some k2 -> snd k2 <> port) by (intros s2 k2 I1 I2 I3; apply U; exists k2, s2; split; [apply (g_reg _ _ G); auto|exact I3]).
        intros s1 s2 k1 k2 [<-|I1] [<-|I2] B1 B2 P; [reflexivity| | |].
        -- unfold bound_to in B1, B2. cbn [n_socks with_reg with_flights] in B1, B2. rewrite nth_error_snoc in B1. rewrite B in B2 by (apply L; exact I2). injection B1 as <-. exfalso. apply (U2 s2 k2 I2 B2). symmetry. exact P.
        -- unfold bound_to in B1, B2. cbn [n_socks with_reg with_flights] in B1, B2. rewrite nth_error_snoc in B2. rewrite B in B1 by (apply L; exact I1). injection B2 as <-. exfalso. apply (U2 s1 k1 I1 B1). exact P.
        -- unfold bound_to in B1, B2. cbn [n_socks with_reg with_flights] in B1, B2. rewrite B in B1 by (apply L; exact I1). rewrite B in B2 by (apply L; exact I2). eapply (g_ports _ _ G); eauto.
    + injection H as <- <-. cbn [open_after]. unfold stop. cbn [with_flights n_fl]. constructor; cbn [n_reg n_queues n_socks with_flights].
      * apply (g_keys _ _ G).
      * intros k2 s2. rewrite (g_reg _ _ G). unfold bound_to. cbn [n_socks with_flights]. split; intros [I1 I2]; (split; [exact I1|]); [rewrite B by (apply L; exact I1)|rewrite B in I2 by (apply L; exact I1)]; exact I2.
      * rewrite !app_length, (g_len _ _ G). reflexivity.
      * intros s Hs. rewrite B by (apply L; exact Hs). apply (g_live _ _ G). exact Hs.
      * apply (g_nodup _ _ G).
      * intros s1 s2 k1 k2 I1 I2 B1 B2 P. unfold bound_to in B1, B2. cbn [n_socks with_flights] in B1, B2. rewrite B in B1 by (apply L; exact I1). rewrite B in B2 by (apply L; exact I2). eapply (g_ports _ _ G); eauto.
  - cbn [open_after]. destruct T as (Hs & (pp & Hp) & ->). cbn [do_op do_act] in H. unfold a_bind in H. destruct (g_live _ _ G s Hs) as (k & K & Pk). rewrite K in H. rewrite Hp in H. cbn [in_use] in H.
    destruct (zmem pp sys || zmem pp (emuports (n_reg n)))%bool eqn:U; [injection H as <- <-; exact G|]. apply orb_false_iff in U as [_ U]. apply zmem_false in U. rewrite emuports_In in U.
    rewrite (sockid_ok k Pk) in H. destruct (normalize a) as [[ip p2]|] eqn:Na; [|injection H as <- <-; exact G].
    assert (p2 = pp). { unfold normalize in Na. rewrite Hp in Na. destruct (a_ip a); [|discriminate]. injection Na as _ <-. reflexivity. } subst p2.
    unfold then_act, start in H. cbn [fst snd do_act] in H. unfold a_rebind in H. cbn [with_sock n_fl] in H.
    replace (flying _ _) with (Some (InBind s (k_proto k, k_ip k, k_port k))) in H by (unfold flying; cbn [with_flights n_fl]; rewrite nth_error_snoc; reflexivity).
    cbn [with_flights with_sock n_reg n_socks] in H. assert (R : In ((k_proto k, k_ip k, k_port k), s) (n_reg n)) by (apply (g_reg _ _ G); split; [exact Hs|apply bound_sock; exact K]).
    rewrite (In_rget _ _ _ (g_keys _ _ G) R) in H. rewrite upd_same in H by (eapply nth_error_lt; exact K). set (k' := mkSock (k_proto k) ip pp (k_remote k) (k_timeout k) (k_block k)) in *.
    rewrite (sockid_ok k' Pk) in H. injection H as <- <-. set (id := (k_proto k', k_ip k', k_port k')) in *. set (old := (k_proto k, k_ip k, k_port k)) in *.
    assert (Nk : ~ In id (keys (rdel old (n_reg n)))).
    { intros I. apply in_map_iff in I as ([k2 s2] & E & I). cbn [fst] in E. subst k2. apply (rdel_In _ _ (g_keys _ _ G)) in I as [I _]. apply U. exists id, s2. split; [exact I|reflexivity]. }
    unfold stop. cbn [with_flights n_fl with_reg n_reg]. rewrite rset_new by exact Nk.
    assert (Bs : forall s', bound_to {| n_socks := upd s k' (n_socks n); n_queues := n_queues n; n_reg := rdel old (n_reg n) ++ [(id, s)]; n_down := n_down n; n_fl := upd (length (n_fl n)) None (n_fl n ++ [Some (InBind s old)]); n_default := n_default n |} s' = if Nat.eqb s s' then Some id else bound_to n s').
    { intros s'. unfold bound_to. cbn [n_socks]. destruct (Nat.eqb_spec s s') as [<-|Hn]; [rewrite upd_same by (eapply nth_error_lt; exact K); reflexivity|rewrite upd_other by exact Hn; reflexivity]. }
    constructor; cbn [n_reg n_queues n_socks with_reg with_flights with_sock n_fl n_down n_default].
    + apply keys_snoc; [apply rdel_NoDup; apply (g_keys _ _ G)|exact Nk].
    + intros k2 s2. rewrite Bs, in_app_iff, (rdel_In _ _ (g_keys _ _ G)), (g_reg _ _ G). cbn [In]. destruct (Nat.eqb_spec s s2) as [<-|Hn].
      * split; [intros [[[I1 I2] D]|[[= <-]|[]]]; [|auto]|intros [_ [= <-]]; auto]. rewrite (bound_sock _ _ _ K) in I2. exfalso. apply D. unfold old. congruence.
      * split; [intros [[[I1 I2] D]|[[= <- <-]|[]]]; [auto|congruence]|]. intros [I1 I2]. left. split; [auto|]. intros ->. apply Hn.
        assert (R2 : In (old, s2) (n_reg n)) by (apply (g_reg _ _ G); auto). apply (In_rget _ _ _ (g_keys _ _ G)) in R2. rewrite (In_rget _ _ _ (g_keys _ _ G) R) in R2. congruence.
    + rewrite upd_length. apply (g_len _ _ G).
    + intros s2 Hs2. destruct (Nat.eq_dec s s2) as [<-|Hn]; [exists k'; split; [apply upd_same; eapply nth_error_lt; exact K|exact Pk]|rewrite upd_other by exact Hn; apply (g_live _ _ G); exact Hs2].
    + apply (g_nodup _ _ G).
    + assert (U2 : forall s2 k2, In s2 lv -> bound_to n s2 = Some k2 -> snd k2 <> pp) by (intros s2 k2 I1 I2 I3; apply U; exists k2, s2; split; [apply (g_reg _ _ G); auto|exact I3]).
      intros s1 s2 k1 k2 I1 I2. rewrite !Bs. destruct (Nat.eqb_spec s s1) as [<-|N1], (Nat.eqb_spec s s2) as [<-|N2]; intros B1 B2 P; [reflexivity| | |].
      * injection B1 as <-. exfalso. apply (U2 s2 k2 I2 B2). symmetry. exact P.
      * injection B2 as <-. exfalso. apply (U2 s1 k1 I1 B1). exact P.
      * eapply (g_ports _ _ G); eauto.
  - cbn [open_after]. apply (deliver_split _ _ _ _ _ _ _ _ G H).
  - cbn [do_op] in H. destruct a; cbn [tidy_op single] in T; try contradiction; cbn [do_act] in H; cbn [open_after].
    + unfold a_close in H. destruct (g_live _ _ G s T) as (k & K & Pk). rewrite K, (sockid_ok k Pk) in H. injection H as <- <-.
      assert (R : In ((k_proto k, k_ip k, k_port k), s) (n_reg n)) by (apply (g_reg _ _ G); split; [exact T|apply bound_sock; exact K]). constructor; cbn [with_reg n_reg n_queues n_socks].
      * apply rdel_NoDup. apply (g_keys _ _ G).
      * intros k2 s2. rewrite (rdel_In _ _ (g_keys _ _ G)), (g_reg _ _ G), remove_In_iff. change (bound_to (with_reg _ n) s2) with (bound_to n s2). split.
        -- intros [[I1 I2] D]. split; [split; [exact I1|]|exact I2]. intros ->. rewrite (bound_sock _ _ _ K) in I2. congruence.
        -- intros [[I1 D] I2]. split; [auto|]. intros ->. apply D. assert (R2 : In ((k_proto k, k_ip k, k_port k), s2) (n_reg n)) by (apply (g_reg _ _ G); auto).
           apply (In_rget _ _ _ (g_keys _ _ G)) in R2. rewrite (In_rget _ _ _ (g_keys _ _ G) R) in R2. congruence.
      * apply (g_len _ _ G).
      * intros s2 H2. apply remove_In_iff in H2 as [H2 _]. apply (g_live _ _ G). exact H2.
      * apply remove_NoDup. apply (g_nodup _ _ G).
      * intros s1 s2 k1 k2 I1 I2. apply remove_In_iff in I1 as [I1 _], I2 as [I2 _]. apply (g_ports _ _ G); auto.
    + unfold a_connect in H. destruct (nth_error (n_socks n) s) as [k|] eqn:K; [|injection H as <- <-; exact G]. destruct (normalize a); injection H as <- <-; [|exact G].
      eapply good_same; [exact G|reflexivity|reflexivity|cbn [with_sock n_socks]; apply upd_length|]. eapply bound_upd; [exact K|reflexivity..].
    + unfold a_send, put_down in H. destruct (nth_error (n_socks n) s) as [k|]; [|injection H as <- <-; exact G]. destruct (k_remote k); injection H as <- <-; [|exact G]. eapply good_same; [exact G|reflexivity..].
    + unfold a_sendto, put_down in H. destruct (nth_error (n_socks n) s) as [k|]; [|injection H as <- <-; exact G]. destruct (normalize a); injection H as <- <-; [|exact G]. eapply good_same; [exact G|reflexivity..].
    + unfold a_recv in H. destruct (nth_error (n_queues n) s) as [q|]; [destruct (bad_wait s n); [|destruct q as [|m l]]|]; injection H as <- <-; [exact G|exact G| |exact G]. eapply nth_queue_upd; [exact G|reflexivity].
    + unfold a_settimeout in H. destruct (nth_error (n_socks n) s) as [k|] eqn:K; injection H as <- <-; [|exact G].
      eapply good_same; [exact G|reflexivity|reflexivity|cbn [with_sock n_socks]; apply upd_length|]. eapply bound_upd; [exact K|unfold settimeout; destruct t as [[]|]; reflexivity..].
    + unfold a_setblocking in H. destruct (nth_error (n_socks n) s) as [k|] eqn:K; injection H as <- <-; [|exact G].
      eapply good_same; [exact G|reflexivity|reflexivity|cbn [with_sock n_socks]; apply upd_length|]. eapply bound_upd; [exact K|reflexivity..].
    + injection H as <- <-. eapply good_same; [exact G|reflexivity..].
    + unfold a_recv_app in H. destruct (n_down n) as [|[f d] t]; injection H as <- <-; [exact G|]. eapply good_same; [exact G|reflexivity..]. Qed.
Lemma good_run l : forall lv n n' log, good lv n -> ops_run n l = (n', log) -> tidy lv log -> good (open_socks lv log) n'.
Proof. induction l as [|o l IH]; intros lv n n' log G H T; cbn [ops_run] in H.
  - injection H as <- <-. exact G.
  - destruct (do_op n o) as [n1 r] eqn:A. destruct (ops_run n1 l) as [n2 l2] eqn:B. injection H as <- <-. destruct T as [T1 T2]. cbn [open_socks]. eapply IH; [eapply good_op; eauto|exact B|exact T2]. Qed.
Lemma good_new : good [] snet_new.
Proof. constructor; cbn; try constructor; try tauto. Qed.
Theorem history_good l n log : ops_run snet_new l = (n, log) -> tidy [] log -> good (open_socks [] log) n.
Proof. intros H. apply (good_run l [] snet_new n log good_new H). Qed.

(** ** Nothing is invented or duplicated on the way up *)
From Coq Require Import Permutation.
Definition wt (f : option flight) : list msg := match f with Some (InWild _ m) | Some (InPut _ m) => [m] | _ => [] end.
Lemma in_flight_snoc n f : in_flight (with_flights (n_fl n ++ [f]) n) = in_flight n ++ wt f.
Proof. unfold in_flight. cbn [with_flights n_fl]. rewrite flat_map_app. cbn [flat_map]. rewrite app_nil_r. reflexivity. Qed.
Lemma flat_upd (l : list (option flight)) i f g : nth_error l i = Some f -> Permutation (wt f ++ flat_map wt (upd i g l)) (wt g ++ flat_map wt l).
Proof. revert i. induction l as [|x l IH]; intros [|i] H; cbn [nth_error upd flat_map] in *; try discriminate.
  - injection H as ->. apply Permutation_app_swap_app.
  - rewrite !(Permutation_app_swap_app _ (wt x)). apply Permutation_app_head. apply IH. exact H. Qed.
Lemma flying_nth i n f : flying i n = Some f -> nth_error (n_fl n) i = Some (Some f).
Proof. unfold flying. destruct (nth_error (n_fl n) i) as [[]|]; congruence. Qed.
Lemma act_flight n a n' r : do_act n a = (n', r) -> exists dropped, length dropped = refusals [(a, r)] /\
  Permutation (in_flight n ++ offered [(a, r)]) (map snd (all_puts [(a, r)]) ++ dropped ++ in_flight n').
Proof. intros H. assert (K : n_fl n' = n_fl n -> offered [(a, r)] = [] -> all_puts [(a, r)] = [] -> refusals [(a, r)] = 0%nat -> exists dropped, length dropped = refusals [(a, r)] /\
    Permutation (in_flight n ++ offered [(a, r)]) (map snd (all_puts [(a, r)]) ++ dropped ++ in_flight n')).
  { intros E -> -> ->. exists []. rewrite app_nil_r. unfold in_flight. rewrite E. split; reflexivity. }
  assert (K2 : forall i f, flying i n = Some f -> wt (Some f) = [] -> n_fl n' = upd i None (n_fl n) -> offered [(a, r)] = [] -> all_puts [(a, r)] = [] -> refusals [(a, r)] = 0%nat -> exists dropped, length dropped = refusals [(a, r)] /\
    Permutation (in_flight n ++ offered [(a, r)]) (map snd (all_puts [(a, r)]) ++ dropped ++ in_flight n')).
  { intros i f F W E -> -> ->. exists []. rewrite app_nil_r. unfold in_flight. rewrite E. split; [reflexivity|]. apply flying_nth in F. pose proof (flat_upd _ _ _ None F) as P. rewrite W in P. symmetry. exact P. }
  destruct a; cbn [do_act] in H.
  - unfold a_new, start in H. destruct (negb (_ || _)); [injection H as <- <-; apply K; reflexivity|]. destruct (negb (typ =? 2)); [injection H as <- <-; apply K; reflexivity|].
    destruct (_ || _)%bool; [injection H as <- <-; apply K; reflexivity|]. destruct fw; injection H as <- <-; [|apply K; reflexivity].
    exists []. split; [reflexivity|]. cbn [offered all_puts map app n_fl]. unfold in_flight. cbn [with_flights n_fl]. rewrite flat_map_app. reflexivity.
  - unfold a_reg in H. destruct (flying i n) as [[]|] eqn:F; try (injection H as <- <-; apply K; reflexivity). destruct (nth_error (n_socks n) s); [|injection H as <- <-; apply K; reflexivity]. destruct (sockid s0); injection H as <- <-; eapply K2; try exact F; reflexivity.
  - unfold a_bind, start in H. destruct (nth_error (n_socks n) s); [|injection H as <- <-; apply K; reflexivity]. destruct (in_use _ _ _); [injection H as <- <-; apply K; reflexivity|]. destruct (sockid s0); [|injection H as <- <-; apply K; reflexivity].
    destruct (normalize a) as [[? ?]|]; injection H as <- <-; [|apply K; reflexivity]. exists []. split; [reflexivity|]. cbn [offered all_puts map app n_fl with_sock]. unfold in_flight. cbn [with_flights n_fl]. rewrite flat_map_app. reflexivity.
  - unfold a_rebind in H. destruct (flying i n) as [[]|] eqn:F; try (injection H as <- <-; apply K; reflexivity). destruct fw; [|injection H as <- <-; eapply K2; try exact F; reflexivity].
    destruct (rget old (n_reg n)), (nth_error (n_socks n) s); try (injection H as <- <-; eapply K2; try exact F; reflexivity). destruct (sockid s0); injection H as <- <-; eapply K2; try exact F; reflexivity.
  - unfold a_close in H. destruct (nth_error (n_socks n) s); [|injection H as <- <-; apply K; reflexivity]. destruct (sockid s0); injection H as <- <-; apply K; reflexivity.
  - unfold a_connect in H. destruct (nth_error (n_socks n) s); [|injection H as <- <-; apply K; reflexivity]. destruct (normalize a); injection H as <- <-; apply K; reflexivity.
  - unfold a_send, put_down in H. destruct (nth_error (n_socks n) s); [|injection H as <- <-; apply K; reflexivity]. destruct (k_remote s0); injection H as <- <-; apply K; reflexivity.
  - unfold a_sendto, put_down in H. destruct (nth_error (n_socks n) s); [|injection H as <- <-; apply K; reflexivity]. destruct (normalize a); injection H as <- <-; apply K; reflexivity.
  - unfold a_recv in H. destruct (nth_error (n_queues n) s) as [q|]; [destruct (bad_wait s n); [|destruct q as [|m l]]|]; injection H as <- <-; apply K; reflexivity.
  - unfold a_settimeout in H. destruct (nth_error (n_socks n) s); injection H as <- <-; apply K; reflexivity.
  - unfold a_setblocking in H. destruct (nth_error (n_socks n) s); injection H as <- <-; apply K; reflexivity.
  - injection H as <- <-; apply K; reflexivity.
  - unfold a_deliver, start in H. destruct (enum_of IPProtocols proto); [|injection H as <- <-; apply K; reflexivity].
    destruct (normalize local) as [l|] eqn:N1; [|injection H as <- <-; apply K; reflexivity]. destruct (normalize remote) as [rr|] eqn:N2; [|injection H as <- <-; apply K; reflexivity].
    assert (M : message_of local remote d = [(l, rr, d)]).
    { unfold normalize in N1, N2. unfold message_of. destruct (a_ip local); [|discriminate]. destruct (a_ip remote); [|destruct (a_port local) as [|[]]; discriminate].
      destruct (a_port local) as [|[]]; try discriminate; destruct (a_port remote) as [|[]]; try discriminate; apply ok_inj in N1, N2; subst; reflexivity. }
    destruct (rget _ _); injection H as <- <-; exists []; (split; [reflexivity|]); cbn [offered all_puts map app]; rewrite M, app_nil_r, in_flight_snoc; reflexivity.
  - unfold a_wild in H. destruct (flying i n) as [[]|] eqn:F; try (injection H as <- <-; apply K; reflexivity). apply flying_nth in F. destruct (rget _ _) as [q|]; injection H as <- <-.
    + exists []. split; [reflexivity|]. cbn [offered all_puts map app]. rewrite app_nil_r. unfold in_flight. cbn [with_flights n_fl]. pose proof (flat_upd _ _ _ (Some (InPut q m)) F) as P. cbn [wt] in P. cbn [app] in P. apply Permutation_cons_inv in P. symmetry. exact P.
    + exists [m]. split; [reflexivity|]. cbn [offered all_puts map app]. rewrite app_nil_r. pose proof (flat_upd _ _ _ None F) as P. symmetry. exact P.
  - unfold a_put in H. destruct (flying i n) as [[]|] eqn:F; try (injection H as <- <-; apply K; reflexivity). apply flying_nth in F. destruct (nth_error (n_queues n) q) as [l|]; injection H as <- <-; [|apply K; reflexivity].
    exists []. split; [reflexivity|]. cbn [offered all_puts map app snd]. rewrite app_nil_r. pose proof (flat_upd _ _ _ None F) as P. symmetry. exact P.
  - unfold a_recv_app in H. destruct (n_down n) as [|[f d] t]; injection H as <- <-; apply K; reflexivity.
  - unfold a_scan, start in H. destruct (nth_error (n_socks n) _); injection H as <- <-; [|apply K; reflexivity]. exists []. split; [reflexivity|]. cbn [offered all_puts map app n_fl]. unfold in_flight. cbn [with_flights n_fl]. rewrite flat_map_app. reflexivity.
  - unfold a_scanned in H. destruct (flying i n) as [[]|] eqn:F; try (injection H as <- <-; apply K; reflexivity). destruct (Nat.eqb _ _); injection H as <- <-; [apply K; reflexivity|eapply K2; try exact F; reflexivity]. Qed.
Lemma offered_cons x l : offered (x :: l) = offered [x] ++ offered l.
Proof. destruct x as [a r]. destruct a; try reflexivity. destruct r; try reflexivity. cbn [offered]. rewrite app_nil_r. reflexivity. Qed.
Lemma all_puts_cons x l : all_puts (x :: l) = all_puts [x] ++ all_puts l.
Proof. destruct x as [a []]; reflexivity. Qed.
Lemma refusals_cons x l : refusals (x :: l) = (refusals [x] + refusals l)%nat.
Proof. destruct x as [a []]; try reflexivity. destruct b; reflexivity. Qed.
Lemma run_flight l : forall n n' log, acts_run n l = (n', log) -> exists dropped, length dropped = refusals log /\
  Permutation (in_flight n ++ offered log) (map snd (all_puts log) ++ dropped ++ in_flight n').
Proof. induction l as [|a l IH]; intros n n' log H; cbn [acts_run] in H.
  - injection H as <- <-. exists []. cbn [offered all_puts map refusals length app]. rewrite app_nil_r. split; reflexivity.
  - destruct (do_act n a) as [n1 r] eqn:A. destruct (acts_run n1 l) as [n2 l2] eqn:B. injection H as <- <-. destruct (act_flight _ _ _ _ A) as (d1 & D1 & P1). destruct (IH _ _ _ B) as (d2 & D2 & P2).
    exists (d1 ++ d2). split; [rewrite app_length, refusals_cons; lia|]. rewrite offered_cons, all_puts_cons, map_app, app_assoc, P1, <- !app_assoc, P2. clear.
    rewrite !app_assoc. do 2 apply Permutation_app_tail. rewrite <- !app_assoc. apply Permutation_app_head. apply Permutation_app_comm. Qed.
Theorem nothing_invented l n' log : acts_run snet_new l = (n', log) -> exists dropped, length dropped = refusals log /\
  Permutation (offered log) (map snd (all_puts log) ++ dropped ++ in_flight n').
Proof. intros H. apply (run_flight _ _ _ _ H). Qed.
Theorem sends_as_addressed n a n' f d : do_act n a = (n', RSent f d) -> exists s k, nth_error (n_socks n) s = Some k /\
  ((exists r, a = ASend s d /\ k_remote k = Some r /\ f = (k_proto k, k_ip k, k_port k, fst r, snd r)) \/
   (exists ad ip p, a = ASendto s d ad /\ a_ip ad = Some ip /\ (a_port ad = PInt p \/ a_port ad = PStr (Some p)) /\ f = (k_proto k, k_ip k, k_port k, ip, p))).
Proof. intros H. destruct a; cbn [do_act] in H; try solve [
    unfold a_new, start in H; repeat match type of H with context [if ?b then _ else _] => destruct b end; discriminate |
    unfold a_reg in H; destruct (flying i n) as [[]|]; try discriminate; destruct (nth_error _ _); try discriminate; destruct (sockid _); discriminate |
    unfold a_bind, start in H; destruct (nth_error _ _); try discriminate; destruct (in_use _ _ _); try discriminate; destruct (sockid _); try discriminate; destruct (normalize _) as [[? ?]|]; discriminate |
    unfold a_rebind in H; destruct (flying i n) as [[]|]; try discriminate; destruct fw; try discriminate; destruct (rget _ _); try discriminate; destruct (nth_error _ _); try discriminate; destruct (sockid _); discriminate |
    unfold a_close in H; destruct (nth_error _ _); discriminate | unfold a_connect in H; destruct (nth_error _ _); try discriminate; destruct (normalize _); discriminate |
    unfold a_recv in H; destruct (nth_error _ _) as [q|]; [destruct (bad_wait _ _); [|destruct q]|]; discriminate | unfold a_settimeout in H; destruct (nth_error _ _); discriminate | unfold a_setblocking in H; destruct (nth_error _ _); discriminate | discriminate |
    unfold a_deliver, start in H; destruct (enum_of _ _); try discriminate; destruct (normalize _); try discriminate; destruct (normalize _); try discriminate; destruct (rget _ _); discriminate |
    unfold a_wild in H; destruct (flying i n) as [[]|]; try discriminate; destruct (rget _ _); discriminate | unfold a_put in H; destruct (flying i n) as [[]|]; try discriminate; destruct (nth_error _ _); discriminate |
    unfold a_recv_app in H; destruct (n_down n) as [|[? ?] ?]; discriminate |
    unfold a_scan, start in H; destruct (nth_error _ _); discriminate | unfold a_scanned in H; destruct (flying i n) as [[]|]; try discriminate; destruct (Nat.eqb _ _); discriminate ].
  - unfold a_send, put_down in H. destruct (nth_error (n_socks n) s) as [k|] eqn:E; [|discriminate]. destruct (k_remote k) as [r|] eqn:R; [|discriminate]. injection H as <- <- <-. exists s, k. split; [exact E|]. left. exists r. auto.
  - unfold a_sendto, put_down in H. destruct (nth_error (n_socks n) s) as [k|] eqn:E; [|discriminate]. destruct (normalize a) as [[ip p]|] eqn:R; [|discriminate]. injection H as <- <- <-. exists s, k. split; [exact E|]. right. exists a, ip, p.
    unfold normalize in R. destruct (a_ip a); [|discriminate]. destruct (a_port a) as [|[]]; try discriminate; injection R as -> ->; auto. Qed.

(** ** bind and socket *)
Theorem bind_checked lv n s a p sys fw n' r : good lv n -> In s lv -> a_port a = PInt p -> do_op n (SBind s a sys fw) = (n', r) ->
  let used := In p sys \/ exists s', In s' lv /\ exists q, bound_to n s' = Some q /\ snd q = p in
  (used <-> r = RNum (-1)) /\ (r = RNum (-1) -> n' = n) /\ (a_ip a = None -> n' = n /\ (used \/ r = RExn EValue)) /\
  (r = RNum 0 -> exists q ip, bound_to n s = Some q /\ a_ip a = Some ip /\ bound_to n' s = Some (fst (fst q), ip, p) /\
     (forall s', s' <> s -> bound_to n' s' = bound_to n s') /\ forall s', pending n' s' = pending n s') /\
  (fw = true -> a_ip a <> None -> ~ used -> r = RNum 0).
Proof. intros G Hs Hp H used. cbn [do_op do_act] in H. unfold a_bind in H. destruct (g_live _ _ G s Hs) as (k & K & Pk). rewrite K, Hp in H. cbn [in_use] in H.
  assert (U : used <-> (zmem p sys || zmem p (emuports (n_reg n)))%bool = true).
  { rewrite orb_true_iff, !zmem_In, emuports_In. unfold used. split; (intros [U|U]; [left; exact U|right]).
    - destruct U as (s' & I & q & B & E). exists q, s'. split; [apply (g_reg _ _ G); auto|exact E].
    - destruct U as (q & s' & I & E). apply (g_reg _ _ G) in I as [I B]. exists s'. split; [exact I|]. exists q. auto. }
  clearbody used. destruct (zmem p sys || zmem p (emuports (n_reg n)))%bool.
  - injection H as <- <-. assert (used) by tauto. repeat split; try tauto; try discriminate; intros; try tauto; discriminate.
  - assert (Nu : ~ used) by (intros X; apply U in X; discriminate). rewrite (sockid_ok k Pk) in H. destruct (normalize a) as [[ip p2]|] eqn:Na.
    + unfold normalize in Na. rewrite Hp in Na. destruct (a_ip a) as [ip'|] eqn:Ea; [|discriminate]. injection Na as -> <-.
      unfold then_act, start in H. cbn [fst snd do_act] in H. unfold a_rebind in H. cbn [with_sock n_fl] in H.
      replace (flying _ _) with (Some (InBind s (k_proto k, k_ip k, k_port k))) in H by (unfold flying; cbn [with_flights n_fl]; rewrite nth_error_snoc; reflexivity). destruct fw.
      * cbn [with_flights with_sock n_reg n_socks] in H. assert (R : In ((k_proto k, k_ip k, k_port k), s) (n_reg n)) by (apply (g_reg _ _ G); split; [exact Hs|apply bound_sock; exact K]).
        rewrite (In_rget _ _ _ (g_keys _ _ G) R) in H. rewrite upd_same in H by (eapply nth_error_lt; exact K). set (k' := mkSock (k_proto k) ip p (k_remote k) (k_timeout k) (k_block k)) in *. rewrite (sockid_ok k' Pk) in H. injection H as <- <-.
        split; [split; [tauto|discriminate]|]. split; [discriminate|]. split; [discriminate|]. split; [|auto]. intros _. exists (k_proto k, k_ip k, k_port k), ip. split; [apply bound_sock; exact K|]. split; [reflexivity|].
        split; [unfold bound_to; cbn [with_reg with_flights with_sock stop n_socks]; rewrite upd_same by (eapply nth_error_lt; exact K); reflexivity|]. split; [|reflexivity].
        intros s' Hn. unfold bound_to. cbn [with_reg with_flights with_sock stop n_socks]. rewrite upd_other by congruence. reflexivity.
      * injection H as <- <-. split; [split; [tauto|discriminate]|]. split; [discriminate|]. split; [discriminate|]. split; [discriminate|]. discriminate.
    + injection H as <- <-. unfold normalize in Na. rewrite Hp in Na. destruct (a_ip a) eqn:Ea; [discriminate|]. injection Na as <-. split; [split; [tauto|discriminate]|]. split; [discriminate|]. split; [auto|]. split; [discriminate|]. congruence. Qed.
Theorem new_port lv n fam typ proto port sys fw n' s : good lv n -> do_op n (SNew fam typ proto port sys fw) = (n', RSock s) ->
  30000 <= port <= 60000 /\ ~ In port sys /\ (forall s' q, In s' lv -> bound_to n s' = Some q -> snd q <> port) /\ ~ In s lv /\
  bound_to n' s = Some (if proto =? 0 then 17 else proto, [0; 0; 0; 0], port) /\ pending n' s = [] /\ (forall s', s' <> s -> bound_to n' s' = bound_to n s' /\ pending n' s' = pending n s').
Proof. intros G H. cbn [do_op do_act] in H. unfold a_new in H. destruct (negb (_ || _)); [discriminate|]. destruct (negb (typ =? 2)); [discriminate|].
  destruct (negb _ || zmem port sys || zmem port (emuports (n_reg n)))%bool eqn:U; [discriminate|]. destruct fw; [|discriminate].
  apply orb_false_iff in U as [U U3]. apply orb_false_iff in U as [U1 U2]. apply zmem_false in U2, U3. rewrite emuports_In in U3. apply negb_false_iff in U1. apply andb_true_iff in U1 as [U1 U4]. apply Z.leb_le in U1, U4.
  unfold then_act, start in H. cbn [fst snd n_fl with_flights do_act] in H. set (k := mkSock (if proto =? 0 then 17 else proto) any_ip port None (n_default n) true) in *. unfold a_reg, flying in H. cbn [with_flights n_fl n_socks] in H. rewrite !nth_error_snoc in H.
  destruct (sockid k) as [id|] eqn:Sk; [|discriminate]. injection H as <- <-. split; [lia|]. split; [exact U2|]. split; [intros s' q I B E; apply U3; exists q, s'; split; [apply (g_reg _ _ G); auto|exact E]|].
  split; [intros I; destruct (g_live _ _ G _ I) as (x & X & _); apply nth_error_lt in X; lia|]. unfold bound_to, pending. cbn [with_reg with_flights stop n_socks n_queues]. rewrite nth_error_snoc. split; [reflexivity|].
  split; [rewrite nth_nth_error, <- (g_len _ _ G), nth_error_snoc; reflexivity|]. intros s' Hn. rewrite !nth_nth_error. destruct (Nat.lt_trichotomy s' (length (n_socks n))) as [L|[L|L]]; [|congruence|].
  - rewrite !nth_error_app1 by (rewrite ?(g_len _ _ G); exact L). auto.
  - assert (E : nth_error (n_socks n) s' = None) by (apply nth_error_None; lia). assert (E2 : nth_error (n_socks n ++ [k]) s' = None) by (apply nth_error_None; rewrite app_length; cbn [length]; lia).
    assert (E3 : nth_error (n_queues n) s' = None) by (apply nth_error_None; rewrite (g_len _ _ G); lia). assert (E4 : nth_error (n_queues n ++ [[]]) s' = None) by (apply nth_error_None; rewrite app_length, (g_len _ _ G); cbn [length]; lia). rewrite E, E2, E3, E4. auto. Qed.

(** ** Timeouts *)
Theorem wait_positive n s t n' r k : (0 < t) -> nth_error (n_socks n) s = Some k -> do_act n (ASettimeout s (Some t)) = (n', r) ->
  exists k', nth_error (n_socks n') s = Some k' /\ recv_wait k' = Some t /\ k_timeout k' = Some t.
Proof. intros P K H. cbn [do_act] in H. unfold a_settimeout in H. rewrite K in H. injection H as <- <-. exists (settimeout (Some t) k). cbn [with_sock n_socks]. split; [apply upd_same; eapply nth_error_lt; exact K|].
  destruct t; try lia. split; reflexivity. Qed.
Theorem wait_zero n s n' r k : nth_error (n_socks n) s = Some k -> do_act n (ASettimeout s (Some 0)) = (n', r) ->
  exists k', nth_error (n_socks n') s = Some k' /\ recv_wait k' = Some 0.
Proof. intros K H. cbn [do_act] in H. unfold a_settimeout in H. rewrite K in H. injection H as <- <-. exists (settimeout (Some 0) k). cbn [with_sock n_socks]. split; [apply upd_same; eapply nth_error_lt; exact K|reflexivity]. Qed.
