(** Generated names and addresses of topology elements. *)
From Coq Require Import DecimalString DecimalN FinFun.
From Verif Require Import BaseLemmas CodecLemmas EthAddrModel EthAddrSpec EthAddrProofs TopoModel.
From Verif Require Export DictLemmas.

(** ** Names *)
Lemma append_inj p : forall a b, append p a = append p b -> a = b.
Proof. induction p as [|c p IH]; cbn [append]; intros a b H; [exact H|]. injection H as H. auto. Qed.
Lemma to_uint_nonnil n : N.to_uint n <> Decimal.Nil.
Proof. intros E. pose proof (Unsigned.of_to n) as H. rewrite E in H. cbn in H. subst n. discriminate. Qed.
Lemma dec_inj a b : dec a = dec b -> a = b.
Proof. unfold dec. intros H. apply (f_equal NilZero.uint_of_string) in H. rewrite !NilZero.usu in H by apply to_uint_nonnil.
  injection H as H. apply Unsigned.to_uint_inj. exact H. Qed.
Lemma eth_name_inj a b : eth_name a = eth_name b -> a = b.
Proof. intros H. apply dec_inj, (append_inj _ _ _ H). Qed.
Lemma rename_inj p a b : rename p a = rename p b -> a = b.
Proof. intros H. apply (append_inj _ _ _ (append_inj _ _ _ H)). Qed.
Lemma append_length a b : String.length (append a b) = (String.length a + String.length b)%nat.
Proof. induction a as [|c a IH]; cbn [append String.length Nat.add]; congruence. Qed.
Lemma rename_neq p a : rename p a <> a.
Proof. intros H. apply (f_equal String.length) in H. unfold rename in H. rewrite !append_length in H. cbn [String.length] in H. lia. Qed.

Lemma fresh_some fuel pre ns : forall n s m, fresh fuel pre n ns = Some (s, m) -> din s ns = false.
Proof. induction fuel as [|f IH]; cbn [fresh]; intros n s m H; [discriminate|].
  destruct (din (append pre (dec n)) ns) eqn:E; [eauto|]. injection H as <- _. exact E. Qed.
Lemma fresh_none fuel pre ns : forall n, fresh fuel pre n ns = None ->
  forall k, (k < fuel)%nat -> In (append pre (dec (n + N.of_nat k))) (dkeys ns).
Proof. induction fuel as [|f IH]; cbn [fresh]; intros n H k Hk; [lia|].
  destruct (din (append pre (dec n)) ns) eqn:E; [|discriminate]. destruct k as [|k].
  - replace (n + N.of_nat 0)%N with n by lia. apply din_iff. exact E.
  - replace (n + N.of_nat (S k))%N with (n + 1 + N.of_nat k)%N by lia. apply IH; [exact H|lia]. Qed.
(** The search for a name ends. *)
Theorem fresh_total pre n ns : exists s m, fresh (S (List.length ns)) pre n ns = Some (s, m) /\ din s ns = false.
Proof. destruct (fresh (S (List.length ns)) pre n ns) as [[s m]|] eqn:E.
  - exists s, m. split; [reflexivity|]. apply (fresh_some _ _ _ _ _ _ E).
  - exfalso. pose proof (fresh_none _ _ _ _ E) as H.
    pose (l := map (fun k => append pre (dec (n + N.of_nat k))) (seq 0 (S (List.length ns)))).
    assert (N : NoDup l).
    { unfold l. apply FinFun.Injective_map_NoDup; [|apply seq_NoDup]. intros a b Hab.
      apply append_inj, dec_inj in Hab. lia. }
    assert (I : incl l (dkeys ns)).
    { intros x Hx. unfold l in Hx. apply in_map_iff in Hx as (k & <- & Hk). apply H. apply in_seq in Hk. lia. }
    pose proof (NoDup_incl_length N I) as L. unfold l, dkeys in L. rewrite !map_length, seq_length in L. lia. Qed.

(** ** Ethernet addresses *)
Lemma be_snoc k : forall v, be (S k) v = be k (v / 256) ++ [v mod 256].
Proof. induction k as [|k IH]; intros v.
  - cbn [be app Z.of_nat Z.pow]. rewrite Z.div_1_r. reflexivity.
  - change (be (S (S k)) v) with ((v / 256 ^ Z.of_nat (S k)) mod 256 :: be (S k) v). rewrite IH.
    change (be (S k) (v / 256)) with ((v / 256 / 256 ^ Z.of_nat k) mod 256 :: be k (v / 256)).
    rewrite Z.div_div, <- pow256_S by (try apply pow256_pos; lia). reflexivity. Qed.
Lemma hexs_be k : forall z, 0 <= z -> hexs (2 * k) z = List.concat (map hex2 (be k z)).
Proof. induction k as [|k IH]; intros z Hz; [reflexivity|]. replace (2 * S k)%nat with (S (S (2 * k)))%nat by lia.
  rewrite be_snoc, map_app, concat_app. cbn [hexs map List.concat app]. rewrite IH by lia. rewrite <- app_assoc. cbn [app]. unfold hex2.
  rewrite Z.div_div by lia. change (16 * 16) with 256. replace (z mod 256 / 16) with ((z / 16) mod 16) by lia.
  replace ((z mod 256) mod 16) with (z mod 16) by lia. reflexivity. Qed.
Lemma pairs_hex l : pairs (List.concat (map hex2 l)) = map hex2 l.
Proof. induction l as [|x l IH]; [reflexivity|]. cbn [map List.concat]. unfold hex2 at 1 3. cbn [app pairs]. rewrite IH. reflexivity. Qed.
Lemma mac_text_small z : 0 <= z < 2 ^ 48 -> mac_text z = to_str 58 (be 6 z).
Proof. intros H. unfold mac_text, format012x. assert (L : (hexlen z <= 12)%nat).
  { unfold hexlen. destruct (z <=? 0) eqn:E; [lia|]. assert (Z.log2 z < 48) by (apply Z.log2_lt_pow2; lia). pose proof (Z.log2_nonneg z). lia. }
  rewrite Nat.max_l by exact L. change 12%nat with (2 * 6)%nat. rewrite hexs_be by lia. rewrite pairs_hex. reflexivity. Qed.
Lemma hexs_chars k : forall z, Forall (fun c => c <> 58 /\ c <> 45) (hexs k z).
Proof. induction k as [|k IH]; intros z; cbn [hexs]; [constructor|]. apply Forall_app. split; [apply IH|]. constructor; [|constructor].
  unfold hexdigit. destruct (_ <? 10) eqn:E; lia. Qed.
Lemma hexs_length k : forall z, List.length (hexs k z) = k.
Proof. induction k as [|k IH]; intros z; cbn [hexs]; [reflexivity|]. rewrite app_length, IH. cbn. lia. Qed.
Lemma pairs_chars (P : Z -> Prop) n : forall s, (List.length s <= n)%nat -> Forall P s -> Forall (Forall P) (pairs s).
Proof. induction n as [|n IH]; intros s L F.
  - destruct s; [constructor|cbn in L; lia].
  - destruct s as [|a [|b r]]; cbn [pairs]; [constructor|repeat constructor; inversion F; auto|].
    inversion F as [|? ? F1 F2]; subst. inversion F2; subst. constructor; [repeat constructor; auto|]. apply IH; [cbn in L; lia|auto]. Qed.
Lemma pairs_length n : forall s, (List.length s <= n)%nat -> (2 * List.length (pairs s) >= List.length s)%nat.
Proof. induction n as [|n IH]; intros s L.
  - destruct s; [cbn; lia|cbn in L; lia].
  - destruct s as [|a [|b r]]; cbn [pairs List.length]; [lia|lia|]. cbn [List.length] in L. specialize (IH r ltac:(lia)). lia. Qed.
Lemma mac_text_big z : 2 ^ 48 <= z -> eth_init (AStr (mac_text z)) = Err ERuntime.
Proof. intros H. unfold mac_text, format012x. set (k := Nat.max 12 (hexlen z)).
  assert (L : (13 <= k)%nat).
  { unfold k, hexlen. destruct (z <=? 0) eqn:E; [lia|]. assert (48 <= Z.log2 z) by (apply (proj1 (Z.log2_le_pow2 z 48 ltac:(lia))); lia). lia. }
  clearbody k. pose proof (pairs_length k (hexs k z) ltac:(rewrite hexs_length; lia)) as PL. rewrite hexs_length in PL.
  pose proof (pairs_chars _ k (hexs k z) ltac:(rewrite hexs_length; lia) (hexs_chars k z)) as PC. set (gs := pairs (hexs k z)) in *.
  assert (C : forall x, x = 58 \/ x = 45 -> Forall (fun g => ~ In x g) gs).
  { intros x Hx. eapply Forall_impl; [|exact PC]. intros g Hg Hi. rewrite Forall_forall in Hg. apply Hg in Hi. lia. }
  assert (NE : gs <> []) by (intros E; rewrite E in PL; cbn [List.length] in PL; lia).
  unfold eth_init. assert (C1 : count 58 (join 58 gs) = (List.length gs - 1)%nat) by (pose proof (count_join 58 gs NE (C _ (or_introl eq_refl))); unfold text in *; lia).
  assert (C2 : count 45 (join 58 gs) = 0%nat) by (apply count_nosep, join_nosep; [lia|auto]).
  rewrite C1, C2. destruct (Nat.eqb_spec (List.length gs - 1) 5); [unfold text in *; lia|]. reflexivity. Qed.
Lemma be6_addr z : addr6 (be 6 z).
Proof. split; [apply be_wfb|apply be_length]. Qed.
(** The n-th automatic address is the number n, and the constructor refuses it when n does not fit in 48 bits. *)
Theorem mac_auto z a : 0 <= z -> eth_init (AStr (mac_text z)) = Ok a -> z < 2 ^ 48 /\ a = be 6 z.
Proof. intros Hz H. destruct (Z.lt_ge_cases z (2 ^ 48)) as [L|L].
  - rewrite mac_text_small in H by lia. destruct (eth_str_round_trip (be 6 z) 58 (be6_addr z) (or_introl eq_refl)) as [E _].
    rewrite E in H. apply ok_inj in H. auto.
  - rewrite mac_text_big in H by lia. discriminate. Qed.
Lemma mac_auto_ok z : 0 <= z < 2 ^ 48 -> eth_init (AStr (mac_text z)) = Ok (be 6 z).
Proof. intros H. rewrite mac_text_small by lia. apply (eth_str_round_trip (be 6 z) 58 (be6_addr z) (or_introl eq_refl)). Qed.
