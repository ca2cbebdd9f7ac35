(** Capture files: proofs. *)
From Coq Require Import QArith Qabs Qround Lqa.
From Verif Require Import Base BaseLemmas EthAddrModel UserModel UnitModel UnitSpec UnitProofs UnitText CapModel CapSpec.
#[local] Open Scope list_scope.
#[local] Open Scope Z_scope.

(** ** The text of a time *)
Lemma numv_shift : forall s acc, numv acc s = acc * 10 ^ zlen s + numv 0 s.
Proof.
  unfold zlen. induction s as [|c s IH]; intros acc; cbn [numv List.length]; [cbn; lia|]. rewrite IH, (IH (0 * 10 + (c - 48))). rewrite Nat2Z.inj_succ, Z.pow_succ_r by lia. lia.
Qed.
Lemma numv_zeros : forall k acc, numv acc (repeat 48 k) = acc * 10 ^ Z.of_nat k.
Proof. induction k as [|k IH]; intros acc; cbn [repeat numv]; [cbn; lia|]. rewrite IH, Nat2Z.inj_succ, Z.pow_succ_r by lia. lia. Qed.
Lemma dec_loop_length : forall f n acc k, 0 <= n < 10 ^ Z.of_nat (S k) -> (List.length (dec_loop f n acc) <= List.length acc + S k)%nat.
Proof.
  induction f as [|f IH]; intros n acc k H; cbn [dec_loop]; [lia|]. destruct (Z.ltb_spec n 10); [cbn [List.length]; lia|].
  destruct k as [|k]; [cbn in H; lia|]. etransitivity; [apply (IH _ _ k)|cbn [List.length]; lia].
  rewrite Nat2Z.inj_succ, Z.pow_succ_r in H by lia. split; [apply Z.div_pos; lia|]. apply Z.div_lt_upper_bound; lia.
Qed.
Lemma six_spec : forall u, 0 <= u < 1000000 -> zlen (six u) = 6 /\ Forall digit (six u) /\ numv 0 (six u) = u.
Proof.
  intros u H. destruct (dec_spec u ltac:(lia)) as (N & F & V). assert (L : (List.length (dec u) <= 6)%nat).
  { unfold dec. destruct (Z.ltb_spec u 0); [lia|]. apply (dec_loop_length _ _ [] 5). exact H. }
  unfold six. split; [|split].
  - unfold zlen. rewrite app_length, repeat_length. lia.
  - apply Forall_app. split; [|exact F]. apply Forall_forall. intros x Hx. apply repeat_spec in Hx. subst x. unfold digit. lia.
  - rewrite numv_app, numv_zeros, Z.mul_0_l. exact V.
Qed.
Lemma time_text : forall s u, 0 <= s -> 0 <= u < 1000000 -> time_of s u = Ok (rnd (inject_Z s + (u # 1000000))).
Proof.
  intros s u Hs Hu. unfold time_of. destruct (Z.ltb_spec s 0); [lia|]. destruct (dec_spec s Hs) as (N & F & V). destruct (six_spec u Hu) as (L & F6 & V6).
  rewrite float_frac; [|destruct (dec s); [contradiction|discriminate]|exact F|exact F6]. f_equal. apply rnd_eq. rewrite L, numv_app, numv_shift, V, V6, L.
  unfold Qeq. cbn [Qnum Qden inject_Z Qplus]. change (Z.to_pos (10 ^ 6)) with 1000000%positive. change (10 ^ 6) with 1000000. lia.
Qed.

(** ** Rounding *)
Lemma rnd_mono : forall x y, (x <= y)%Q -> (rnd x <= rnd y)%Q.
Proof.
  intros x y H. destruct (Qlt_le_dec (rnd y) (rnd x)) as [L|L]; [|exact L]. exfalso. destruct (rnd_nearest x) as [Dx Nx]. destruct (rnd_nearest y) as [Dy Ny].
  specialize (Nx _ Dy). specialize (Ny _ Dx). assert (E : (x == y)%Q). { revert Nx Ny. repeat apply Qabs_case; intros; lra. }
  rewrite (rnd_eq _ _ E) in L. lra.
Qed.
Lemma trunc_spec : forall x, (0 <= x)%Q -> (inject_Z (trunc x) <= x)%Q /\ (x < inject_Z (trunc x) + 1)%Q /\ 0 <= trunc x.
Proof.
  intros [n d] H. unfold trunc. cbn [Qnum Qden]. assert (Hn : 0 <= n) by (unfold Qle in H; cbn in H; lia). rewrite Z.quot_div_nonneg by lia.
  pose proof (Z.div_mod n (Zpos d) ltac:(lia)) as E. pose proof (Z.mod_pos_bound n (Zpos d) ltac:(lia)) as B. unfold Qle, Qlt, inject_Z, Qplus. cbn [Qnum Qden].
  split; [|split]; [nia|nia|apply Z.div_pos; lia].
Qed.
Lemma trunc_le : forall x y, (0 <= x)%Q -> (x <= y)%Q -> trunc x <= trunc y.
Proof.
  intros x y H L. destruct (trunc_spec x H) as (A & B & _). destruct (trunc_spec y ltac:(lra)) as (C & D & _).
  assert (inject_Z (trunc x) < inject_Z (trunc y) + 1)%Q by lra. rewrite <- (inject_Z_plus _ 1) in *. rewrite <- Zlt_Qlt in *. lia.
Qed.
Lemma trunc_unique : forall x n, (inject_Z n <= x)%Q -> (x < inject_Z n + 1)%Q -> 0 <= n -> trunc x = n.
Proof.
  intros x n A B H. assert (P : (0 <= x)%Q) by (apply Qle_trans with (inject_Z n); [change 0%Q with (inject_Z 0); rewrite <- Zle_Qle; lia|exact A]).
  destruct (trunc_spec x P) as (C & D & _). assert (E1 : (inject_Z (trunc x) < inject_Z n + 1)%Q) by lra. assert (E2 : (inject_Z n < inject_Z (trunc x) + 1)%Q) by lra.
  rewrite <- (inject_Z_plus _ 1) in E1. rewrite <- (inject_Z_plus _ 1) in E2. rewrite <- Zlt_Qlt in E1. rewrite <- Zlt_Qlt in E2. lia.
Qed.
(** The part of a float behind the point is a float. *)
Lemma two_split : forall e, e < 0 -> (inject_Z (2 ^ (- e)) * (2 # 1) ^ e == 1)%Q.
Proof. intros e H. rewrite <- (two_Z (- e)) by lia. fold (two e). rewrite <- two_add. replace (- e + e) with 0 by lia. reflexivity. Qed.
Lemma double_frac : forall t, double t -> (0 <= t)%Q -> double (t - inject_Z (trunc t)).
Proof.
  intros t (m & e & M & E) P. destruct (trunc_spec t P) as (A & B & C). destruct (Z_lt_le_dec e 0) as [He|He].
  - pose proof (two_pos e) as Tp. unfold two in Tp. assert (Hm : 0 <= m). { rewrite E in P. assert (0 <= inject_Z m)%Q by (apply (Qmult_lt_0_le_reg_r _ _ ((2 # 1) ^ e) Tp); rewrite Qmult_0_l; exact P). change 0%Q with (inject_Z 0) in H. rewrite <- Zle_Qle in H. exact H. }
    exists (m - trunc t * 2 ^ (- e)), e. pose proof (two_split e He) as S. split.
    + assert (L : (inject_Z (trunc t * 2 ^ (- e)) <= inject_Z m)%Q).
      { rewrite inject_Z_mult. rewrite E in A at 2. assert (inject_Z (trunc t) * (inject_Z (2 ^ (- e)) * (2 # 1) ^ e) <= inject_Z m * (2 # 1) ^ e)%Q by (rewrite S; lra). apply (Qmult_lt_0_le_reg_r _ _ ((2 # 1) ^ e) Tp). rewrite <- Qmult_assoc. exact H. }
      rewrite <- Zle_Qle in L. assert (0 <= trunc t * 2 ^ (- e)) by (apply Z.mul_nonneg_nonneg; [exact C|apply Z.pow_nonneg; lia]). lia.
    + unfold Z.sub. rewrite inject_Z_plus, inject_Z_opp, inject_Z_mult. rewrite E at 1.
      setoid_replace ((inject_Z m + - (inject_Z (trunc t) * inject_Z (2 ^ (- e)))) * (2 # 1) ^ e)%Q with (inject_Z m * (2 # 1) ^ e - inject_Z (trunc t) * (inject_Z (2 ^ (- e)) * (2 # 1) ^ e))%Q by ring.
      rewrite S. ring.
  - exists 0, 0. split; [cbn; lia|]. assert (Et : (t == inject_Z (m * 2 ^ e))%Q) by (rewrite E, inject_Z_mult; fold (two e); rewrite two_Z by exact He; reflexivity).
    assert (T : trunc t = m * 2 ^ e).
    { apply trunc_unique; try lra. rewrite Et in P. change 0%Q with (inject_Z 0) in P. rewrite <- Zle_Qle in P. exact P. }
    rewrite T, Et. ring.
Qed.
Definition below1 : Q := 1 - (1 # 2 ^ 53).
Lemma double_below : forall t, double t -> (t < 1)%Q -> (t <= below1)%Q.
Proof.
  intros t (m & e & M & E) L. pose proof (two_pos e) as Tp. unfold two in Tp. unfold below1. destruct (Z_lt_le_dec e (-53)) as [He|He].
  - assert (T2 : ((2 # 1) ^ e <= (2 # 1) ^ (-54))%Q) by (apply two_le; lia). change ((2 # 1) ^ (-54))%Q with (1 # 2 ^ 54)%Q in T2.
    assert (Q1 : (inject_Z m <= inject_Z (2 ^ 53))%Q) by (rewrite <- Zle_Qle; lia). rewrite E.
    assert (inject_Z m * (2 # 1) ^ e <= inject_Z (2 ^ 53) * (1 # 2 ^ 54))%Q. { apply Qle_trans with (inject_Z (2 ^ 53) * (2 # 1) ^ e)%Q; [apply Qmult_le_compat_r; [exact Q1|apply Qlt_le_weak, Tp]|]. rewrite !(Qmult_comm (inject_Z _)). apply Qmult_le_compat_r; [exact T2|discriminate]. }
    eapply Qle_trans; [eassumption|]. vm_compute. discriminate.
  - destruct (Z_lt_le_dec e 0) as [Hn|Hn].
    + pose proof (two_split e Hn) as S. assert (K : (inject_Z m < inject_Z (2 ^ (- e)))%Q) by (apply (Qmult_lt_r _ _ ((2 # 1) ^ e) Tp); rewrite S, <- E; exact L). rewrite <- Zlt_Qlt in K.
      assert (K2 : (inject_Z m <= inject_Z (2 ^ (- e)) - 1)%Q) by (change 1%Q with (inject_Z 1); unfold Qminus; rewrite <- inject_Z_opp, <- inject_Z_plus, <- Zle_Qle; lia).
      assert (T2 : ((2 # 1) ^ (-53) <= (2 # 1) ^ e)%Q) by (apply two_le; lia). change ((2 # 1) ^ (-53))%Q with (1 # 2 ^ 53)%Q in T2. rewrite E.
      assert (inject_Z m * (2 # 1) ^ e <= (inject_Z (2 ^ (- e)) - 1) * (2 # 1) ^ e)%Q by (apply Qmult_le_compat_r; [exact K2|apply Qlt_le_weak, Tp]).
      assert ((inject_Z (2 ^ (- e)) - 1) * (2 # 1) ^ e == 1 - (2 # 1) ^ e)%Q by (rewrite <- S at 2; ring).
      revert T2 H H0. generalize (1 # 2 ^ 53)%Q ((2 # 1) ^ e)%Q (inject_Z (2 ^ (- e))) (inject_Z m). intros a b c d H1 H2 H3. clear - H1 H2 H3. rewrite H3 in H2. lra.
    + assert (Et : (t == inject_Z (m * 2 ^ e))%Q) by (rewrite E, inject_Z_mult; fold (two e); rewrite two_Z by exact Hn; reflexivity). rewrite Et in L. change 1%Q with (inject_Z 1) in L. rewrite <- Zlt_Qlt in L.
      rewrite Et. apply Qle_trans with (inject_Z 0); [rewrite <- Zle_Qle; lia|]. vm_compute. discriminate.
Qed.
(** ** Times that are written *)
Lemma stamp_spec : forall t, double t -> (0 <= t)%Q -> exists s u v, stamp t = (s, u) /\ s = trunc t /\ 0 <= s /\ 0 <= u < 1000000 /\ u = trunc v /\ v = rnd (inject_Z 1000000 * (t - inject_Z s)) /\ (0 <= v)%Q.
Proof.
  intros t D P. destruct (trunc_spec t P) as (A & B & C). unfold stamp. set (s := trunc t) in *. exists s.
  assert (F : (rnd (t - inject_Z s) == t - inject_Z s)%Q) by (apply rnd_double, double_frac; assumption).
  assert (G : rnd (inject_Z 1000000 * rnd (t - inject_Z s)) = rnd (inject_Z 1000000 * (t - inject_Z s))) by (apply rnd_eq; rewrite F; reflexivity). rewrite G.
  set (v := rnd (inject_Z 1000000 * (t - inject_Z s))). assert (V : (0 <= v)%Q).
  { change 0%Q with (rnd 0). apply rnd_mono. change (inject_Z 1000000) with (1000000 # 1). nra. }
  exists (trunc v), v. split; [reflexivity|]. split; [reflexivity|]. split; [exact C|]. split; [|auto].
  destruct (trunc_spec v V) as (V1 & V2 & V3). split; [exact V3|].
  assert (L : (v <= rnd (inject_Z 1000000 * below1))%Q).
  { apply rnd_mono. rewrite !(Qmult_comm (inject_Z 1000000)). apply Qmult_le_compat_r; [|discriminate]. apply double_below; [apply double_frac; assumption|lra]. }
  assert (L2 : (rnd (inject_Z 1000000 * below1) < inject_Z 1000000)%Q) by (vm_compute; reflexivity).
  assert (K : (inject_Z (trunc v) < inject_Z 1000000)%Q) by lra. rewrite <- Zlt_Qlt in K. exact K.
Qed.

(** What is read back for a time that was written. *)
Definition seen (t : Q) : Q := let '(s, u) := stamp t in rnd (inject_Z s + (u # 1000000)).
Lemma seen_read : forall t, double t -> (0 <= t)%Q -> forall s u, stamp t = (s, u) -> time_of s u = Ok (seen t).
Proof.
  intros t D P s u E. destruct (stamp_spec t D P) as (s' & u' & v & E' & _ & Hs & Hu & _). rewrite E in E'. apply pair_equal_spec in E' as [-> ->].
  unfold seen. rewrite E. apply time_text; assumption.
Qed.
Lemma rnd_abs : forall x, (0 <= x)%Q -> (x <= inject_Z (2 ^ 31))%Q -> (x - (1 # 4194304) <= rnd x)%Q /\ (rnd x <= x + (1 # 4194304))%Q.
Proof.
  intros x P L. destruct (rnd_rel x P) as [A B]. assert (K : (x * u53 <= 1 # 4194304)%Q).
  { apply Qle_trans with (inject_Z (2 ^ 31) * u53)%Q; [apply Qmult_le_compat_r; [exact L|discriminate]|vm_compute; discriminate]. }
  revert A B K. generalize u53 (rnd x). intros. split; lra.
Qed.
Lemma micro : forall s u, (inject_Z s + (u # 1000000) == (inject_Z (s * 1000000 + u)) * (1 # 1000000))%Q.
Proof. intros. unfold Qeq, inject_Z, Qplus, Qmult. cbn [Qnum Qden]. lia. Qed.
Lemma inj1 : forall u, ((u # 1000000) == inject_Z u * (1 # 1000000))%Q.
Proof. intros. unfold Qeq, inject_Z, Qmult. cbn [Qnum Qden]. lia. Qed.
Lemma seen_within : forall t, usual_time t -> within (125 # 100000000) (25 # 100000000) t (seen t).
Proof.
  intros t (D & P & L). destruct (stamp_spec t D ltac:(lra)) as (s & u & v & E & Es & Hs & Hu & Eu & Ev & Pv). unfold seen. rewrite E.
  destruct (trunc_spec t ltac:(lra)) as (A & B & _). rewrite <- Es in A, B. destruct (trunc_spec v Pv) as (A1 & B1 & _). rewrite <- Eu in A1, B1.
  assert (F : (0 <= inject_Z 1000000 * (t - inject_Z s))%Q) by (change (inject_Z 1000000) with (1000000 # 1); lra).
  destruct (rnd_rel _ F) as [C1 C2]. rewrite <- Ev in C1, C2.
  assert (K : (inject_Z 1000000 * (t - inject_Z s) * u53 <= 1 # 1000000000)%Q).
  { apply Qle_trans with (inject_Z 1000000 * u53)%Q; [apply Qmult_le_compat_r; [change (inject_Z 1000000) with (1000000 # 1); lra|discriminate]|vm_compute; discriminate]. }
  change (inject_Z 1000000) with (1000000 # 1) in *. rewrite (rnd_eq (inject_Z s + (u # 1000000)) (inject_Z s + inject_Z u * (1 # 1000000))) by (rewrite inj1; reflexivity).
  assert (W1 : (v <= (1000000 # 1) * (t - inject_Z s) + (1 # 1000000000))%Q) by (revert C2 K; generalize u53; intros; lra).
  assert (W2 : ((1000000 # 1) * (t - inject_Z s) - (1 # 1000000000) <= v)%Q) by (revert C1 K; generalize u53; intros; lra).
  clear C1 C2 K F Ev. assert (Z0 : (0 <= inject_Z u)%Q) by (change 0%Q with (inject_Z 0); rewrite <- Zle_Qle; lia).
  assert (Z1 : (0 <= inject_Z s)%Q) by (change 0%Q with (inject_Z 0); rewrite <- Zle_Qle; lia).
  assert (Z2 : (inject_Z u <= 999999 # 1)%Q) by (change (999999 # 1)%Q with (inject_Z 999999); rewrite <- Zle_Qle; lia).
  assert (Z3 : (inject_Z s + 1 <= inject_Z (2 ^ 31))%Q).
  { assert (X : (inject_Z s < inject_Z (2 ^ 31))%Q) by lra. rewrite <- Zlt_Qlt in X. change (inject_Z s + 1)%Q with (inject_Z s + inject_Z 1)%Q. rewrite <- (inject_Z_plus s 1), <- Zle_Qle. lia. }
  destruct (rnd_abs (inject_Z s + inject_Z u * (1 # 1000000))) as [R1 R2]; [lra|lra|]. split; lra.
Qed.
(** Times keep their order. *)
Lemma seen_mono : forall t1 t2, double t1 -> double t2 -> (0 <= t1)%Q -> (t1 <= t2)%Q -> (seen t1 <= seen t2)%Q.
Proof.
  intros t1 t2 D1 D2 P L. destruct (stamp_spec t1 D1 P) as (s1 & u1 & v1 & E1 & Es1 & Hs1 & Hu1 & Eu1 & Ev1 & Pv1).
  destruct (stamp_spec t2 D2 ltac:(lra)) as (s2 & u2 & v2 & E2 & Es2 & Hs2 & Hu2 & Eu2 & Ev2 & Pv2). unfold seen. rewrite E1, E2. apply rnd_mono.
  pose proof (trunc_le _ _ P L) as S. rewrite <- Es1, <- Es2 in S. rewrite !micro. apply Qmult_le_compat_r; [|discriminate]. rewrite <- Zle_Qle.
  destruct (Z.eq_dec s1 s2) as [->|N]; [|nia]. assert (u1 <= u2); [|lia]. rewrite Eu1, Eu2. apply trunc_le; [exact Pv1|]. rewrite Ev1, Ev2. apply rnd_mono.
  change (inject_Z 1000000) with (1000000 # 1). lra.
Qed.
(** Copying a time. *)
Lemma copy_time : forall s u, 0 <= s < 2 ^ 31 -> 0 <= u < 1000000 -> 0 < s * 1000000 + u ->
  exists t u', time_of s u = Ok t /\ (0 < t)%Q /\ stamp t = (s, u') /\ (u' = u \/ u' = u - 1 /\ 1 <= u).
Proof.
  intros s u Hs Hu Hp. rewrite (time_text s u ltac:(lia) Hu). exists (rnd (inject_Z s + (u # 1000000))).
  set (x := (inject_Z s + (u # 1000000))%Q). assert (Ex : (x == inject_Z s + inject_Z u * (1 # 1000000))%Q) by (unfold x; rewrite inj1; reflexivity).
  assert (Z0 : (0 <= inject_Z u)%Q) by (change 0%Q with (inject_Z 0); rewrite <- Zle_Qle; lia).
  assert (Z1 : (0 <= inject_Z s)%Q) by (change 0%Q with (inject_Z 0); rewrite <- Zle_Qle; lia).
  assert (Z2 : (inject_Z u <= 999999 # 1)%Q) by (change (999999 # 1)%Q with (inject_Z 999999); rewrite <- Zle_Qle; lia).
  assert (Z3 : (inject_Z s + 1 <= inject_Z (2 ^ 31))%Q) by (change (inject_Z s + 1)%Q with (inject_Z s + inject_Z 1)%Q; rewrite <- (inject_Z_plus s 1), <- Zle_Qle; lia).
  destruct (rnd_abs x) as [R1 R2]; [lra|lra|]. pose proof (proj1 (rnd_nearest x)) as D. set (t := rnd x) in *.
  assert (P : (0 <= t)%Q). { change 0%Q with (rnd 0). apply rnd_mono. lra. }
  assert (C : u = 0 /\ (t == inject_Z s)%Q \/ 1 <= u /\ (1 <= inject_Z u)%Q).
  { destruct (Z.eq_dec u 0) as [->|N].
    - left. split; [reflexivity|]. unfold t. rewrite (rnd_eq x (inject_Z s)) by (rewrite Ex; change (inject_Z 0) with 0%Q; ring). rewrite rnd_Z by lia. reflexivity.
    - right. split; [lia|]. change 1%Q with (inject_Z 1). rewrite <- Zle_Qle. lia. }
  assert (T : trunc t = s).
  { apply trunc_unique; [|lra|lia]. destruct C as [[_ C]|[_ C]]; lra. }
  destruct (stamp_spec t D P) as (s' & u' & v & E & Es & _ & Hu' & Eu & Ev & Pv). rewrite T in Es. subst s'. exists u'. split; [reflexivity|].
  split. { destruct C as [[-> C]|[_ C]]; [|lra]. rewrite C. change 0%Q with (inject_Z 0). rewrite <- Zlt_Qlt. lia. }
  split; [exact E|]. destruct (trunc_spec v Pv) as (A1 & B1 & _). rewrite <- Eu in A1, B1. destruct C as [[-> C]|[Hu1 C]].
  - left. assert (V : v = 0%Q). { rewrite Ev. transitivity (rnd 0); [|reflexivity]. apply rnd_eq. rewrite C. ring. } rewrite V in Eu. rewrite Eu. reflexivity.
  - assert (F0 : (0 <= t - inject_Z s)%Q) by lra.
    assert (F : (0 <= inject_Z 1000000 * (t - inject_Z s))%Q) by (change (inject_Z 1000000) with (1000000 # 1); lra).
    destruct (rnd_rel _ F) as [C1 C2]. rewrite <- Ev in C1, C2.
    assert (K : (inject_Z 1000000 * (t - inject_Z s) * u53 <= 1 # 1000000000)%Q).
    { apply Qle_trans with (inject_Z 1000000 * u53)%Q; [apply Qmult_le_compat_r; [change (inject_Z 1000000) with (1000000 # 1); lra|discriminate]|vm_compute; discriminate]. }
    change (inject_Z 1000000) with (1000000 # 1) in *.
    assert (W1 : (v <= (1000000 # 1) * (t - inject_Z s) + (1 # 1000000000))%Q) by (revert C2 K; generalize u53; intros; lra).
    assert (W2 : ((1000000 # 1) * (t - inject_Z s) - (1 # 1000000000) <= v)%Q) by (revert C1 K; generalize u53; intros; lra).
    clear C1 C2 K F Ev. assert (U1 : (inject_Z u' < inject_Z u + 1)%Q) by lra. assert (U2 : (inject_Z u - 2 < inject_Z u')%Q) by lra.
    change (inject_Z u + 1)%Q with (inject_Z u + inject_Z 1)%Q in U1. rewrite <- (inject_Z_plus u 1), <- Zlt_Qlt in U1. change (inject_Z u - 2)%Q with (inject_Z u + inject_Z (- 2))%Q in U2. rewrite <- inject_Z_plus, <- Zlt_Qlt in U2. lia.
Qed.

(** ** Reading *)
Definition packet_for (x : bytes * Q) (p : packet) : Prop :=
  p_raw p = fst x /\ p_caplen p = zlen (fst x) /\ p_len p = zlen (fst x) /\ p_time p = seen (snd x).
Lemma recv_filter : forall keep f, recv_packet keep f = match filter keep f with [] => (Ok None, []) | r :: _ => (p <- packet_of r;; Ok (Some p), snd (recv_packet keep f)) end
  /\ (forall r l, filter keep f = r :: l -> filter keep (snd (recv_packet keep f)) = l).
Proof.
  intros keep f. induction f as [|r f IH]; cbn [filter recv_packet]; [split; [reflexivity|discriminate]|]. destruct (keep r).
  - split; [reflexivity|]. intros r' l E. injection E as _ E. exact E.
  - exact IH.
Qed.
(** Everything that passes, in order. *)
Fixpoint packets (f : capture) : res (list packet) := match f with [] => Ok [] | r :: f => p <- packet_of r;; l <- packets f;; Ok (p :: l) end.
Lemma read_packets : forall n keep f, (List.length (filter keep f) < n)%nat -> read_all n keep f = packets (filter keep f).
Proof.
  induction n as [|n IH]; intros keep f L; [lia|]. cbn [read_all]. destruct (recv_filter keep f) as [E N]. rewrite E.
  destruct (filter keep f) as [|r l]; [reflexivity|]. cbn [packets]. destruct (packet_of r) as [p|e]; cbn [bindr]; [|reflexivity].
  rewrite IH; rewrite (N r l eq_refl); [reflexivity|cbn [List.length] in L; lia].
Qed.
Lemma filter_length : forall {A} (k : A -> bool) l, (List.length (filter k l) <= List.length l)%nat.
Proof. intros A k l. induction l as [|a l IH]; cbn [filter List.length]; [lia|]. destruct (k a); cbn [List.length]; lia. Qed.
Lemma read_enough : forall n keep f, (List.length f < n)%nat -> read_all n keep f = packets (filter keep f).
Proof. intros n keep f H. apply read_packets. pose proof (filter_length keep f). lia. Qed.
Lemma dispatch_all : forall keep f, fst (dispatch keep None f) = packets (filter keep f) .
Proof.
  intros keep f. induction f as [|r f IH]; cbn [dispatch filter]; [reflexivity|]. destruct (keep r); [|exact IH]. cbn [packets].
  destruct (packet_of r) as [p|e]; cbn [bindr]; [|reflexivity]. destruct (dispatch keep None f) as [l g]. cbn [fst] in *. rewrite IH. reflexivity.
Qed.
Lemma dispatch_rest : forall keep f c out g, dispatch keep c f = (Ok out, g) ->
  (exists rest, packets (filter keep f) = (l <- packets rest;; Ok (out ++ l)) /\ filter keep g = rest) /\
  match c with Some n => (List.length out <= n)%nat /\ ((List.length out < n)%nat -> g = []) | None => g = [] end.
Proof.
  intros keep f. induction f as [|r f IH]; intros c out g; cbn [dispatch filter].
  - intros E. injection E as <- <-. split; [exists []; split; reflexivity|destruct c; [cbn [List.length]; split; [lia|reflexivity]|reflexivity]].
  - destruct (keep r) eqn:K; [|apply IH].
    assert (M : forall c, (match packet_of r with Err e => (Err e, f) | Ok p => let '(l, g) := dispatch keep c f in (l <- l;; Ok (p :: l), g) end) = (Ok out, g) ->
      exists p out', out = p :: out' /\ packet_of r = Ok p /\ dispatch keep c f = (Ok out', g)).
    { intros c' E. destruct (packet_of r) as [p|e]; [|discriminate]. destruct (dispatch keep c' f) as [[l|e] g']; cbn [bindr] in E; [|discriminate]. injection E as <- <-. exists p, l. auto. }
    assert (W : forall p out' c, packet_of r = Ok p -> dispatch keep c f = (Ok out', g) -> exists rest, packets (r :: filter keep f) = (l <- packets rest;; Ok ((p :: out') ++ l)) /\ filter keep g = rest).
    { intros p out' c' Ep Ed. destruct (IH _ _ _ Ed) as [(rest & R1 & R2) _]. exists rest. split; [|exact R2]. cbn [packets]. rewrite Ep. cbn [bindr]. rewrite R1. destruct (packets rest); reflexivity. }
    destruct c as [[|n]|]; intros E.
    + injection E as <- <-. cbn [filter]. rewrite K. split; [|cbn [List.length]; split; lia]. exists (r :: filter keep f). split; [|reflexivity]. cbn [app]. generalize (packets (r :: filter keep f)). intros []; reflexivity.
    + destruct (M _ E) as (p & out' & -> & Ep & Ed). split; [eapply W; eassumption|]. destruct (IH _ _ _ Ed) as [_ [L1 L2]]. cbn [List.length]. split; [lia|]. intros. apply L2. lia.
    + destruct (M _ E) as (p & out' & -> & Ep & Ed). split; [eapply W; eassumption|]. destruct (IH _ _ _ Ed) as [_ L]. exact L.
Qed.
Lemma pieces_rest : forall keep ns f out g, pieces keep ns f out g -> packets (filter keep f) = (l <- packets (filter keep g);; Ok (out ++ l)).
Proof.
  intros keep ns f out g H. induction H as [f|n ns f out f1 more f2 E _ IH]; [cbn [app]; destruct (packets _); reflexivity|].
  destruct (dispatch_rest _ _ _ _ _ E) as [(rest & R1 & <-) _]. rewrite R1, IH. destruct (packets (filter keep f2)); cbn [bindr]; [|reflexivity]. rewrite app_assoc. reflexivity.
Qed.
Lemma packets_app : forall a b, packets (a ++ b) = (x <- packets a;; y <- packets b;; Ok (x ++ y)).
Proof.
  intros a b. induction a as [|r a IH]; cbn [packets app bindr]; [destruct (packets b); reflexivity|]. destruct (packet_of r); cbn [bindr]; [|reflexivity].
  rewrite IH. destruct (packets a); cbn [bindr]; [|reflexivity]. destruct (packets b); reflexivity.
Qed.
(** ** Writing, then reading *)
Lemma write_one : forall b t clock f f', double t -> (0 < t)%Q -> write_packet (VBytes b) (Some t) clock f = Ok f' ->
  exists r p, f' = f ++ [r] /\ r_data r = b /\ packet_of r = Ok p /\ packet_for (b, t) p.
Proof.
  intros b t clock f f' D P. unfold write_packet. destruct (Qeq_bool t 0) eqn:Q0; [apply Qeq_bool_iff in Q0; rewrite Q0 in P; discriminate|].
  destruct (stamp t) as [s u] eqn:E. intros H. injection H as <-. pose proof (seen_read t D ltac:(lra) s u E) as T.
  exists (mkRec s u (zlen b) (zlen b) b), (mkPacket (seen t) (zlen b) (zlen b) b). split; [reflexivity|]. split; [reflexivity|]. split; [|repeat split].
  unfold packet_of. cbn [r_sec r_usec r_caplen r_len r_data]. rewrite T. cbn [bindr]. rewrite firstn_all2; [reflexivity|]. unfold zlen. lia.
Qed.
Lemma written_packets : forall l f, written l f -> Forall (fun x => usual_time (snd x)) l -> forall k,
  List.length f = List.length l /\ exists ps, packets (filter (on_data k) f) = Ok ps /\ Forall2 packet_for (filter (fun x => k (fst x)) l) ps.
Proof.
  intros l f H. induction H as [|l f b t clock f' W IH E]; intros F k; [split; [reflexivity|]; exists []; split; [reflexivity|constructor]|].
  apply Forall_app in F as [F1 F2]. inversion F2 as [|? ? (D & P & _) _]; subst. destruct (IH F1 k) as (L & ps & E1 & E2).
  destruct (write_one _ _ _ _ _ D P E) as (r & p & -> & Er & Ep & Hp). split; [rewrite !app_length, L; reflexivity|]. rewrite !filter_app, packets_app, E1. cbn [bindr filter fst].
  unfold on_data at 1. rewrite Er. destruct (k b).
  - exists (ps ++ [p]). cbn [packets]. rewrite Ep. cbn [bindr]. split; [reflexivity|]. apply Forall2_app; [exact E2|]. repeat constructor; apply Hp.
  - exists ps. cbn [packets bindr]. rewrite !app_nil_r. split; [reflexivity|exact E2].
Qed.
(** ** Copying *)
Lemma copied_records : forall f g, copied f g -> Forall (fun r => usual_record r /\ 0 < micros r) f ->
  Forall2 (fun r r' => r_data r' = r_data r /\ r_caplen r' = r_caplen r /\ r_len r' = r_len r /\ micros r - 1 <= micros r' <= micros r) f g.
Proof.
  intros f g H. induction H as [|f g r p clock g' C IH Ep E]; intros F; [constructor|]. apply Forall_app in F as [F1 F2]. inversion F2 as [|? ? [(Hs & Hu & Hc & Hl) Hp] _]; subst. specialize (IH F1).
  destruct (copy_time _ _ Hs Hu Hp) as (t & u' & T & P & St & Hu'). unfold packet_of in Ep. rewrite T in Ep. cbn [bindr] in Ep. injection Ep as <-. cbn [p_raw p_time] in E.
  unfold write_packet in E. destruct (Qeq_bool t 0) eqn:Q0; [apply Qeq_bool_iff in Q0; rewrite Q0 in P; discriminate|]. rewrite St in E. injection E as <-.
  rewrite firstn_all2 by (rewrite Hc; unfold zlen; lia). apply Forall2_app; [exact IH|]. constructor; [|constructor]. cbn [r_data r_caplen r_len]. rewrite Hc, Hl. split; [reflexivity|]. split; [reflexivity|]. split; [reflexivity|].
  unfold micros. cbn [r_sec r_usec]. lia.
Qed.
