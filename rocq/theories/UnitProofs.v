(** Proofs about rounding, numerals and units (C86). *)
From Coq Require Import QArith Qabs Qround Qpower Lqa Lia Zquot.
From Verif Require Import Base BaseLemmas EthAddrModel UserModel UnitModel UnitSpec.
Local Open Scope Z_scope.

(** ** Rounding *)
Lemma rne_bound : forall a b, 0 < b -> -b <= 2 * (rne a b * b - a) <= b.
Proof.
  intros a b Hb. unfold rne. pose proof (Z.div_mod a b ltac:(lia)) as E. pose proof (Z.mod_pos_bound a b Hb) as B.
  set (q := a / b) in *. set (r := a mod b) in *.
  destruct (Z.ltb_spec (2 * r) b); [nia|]. destruct (Z.ltb_spec b (2 * r)); [nia|].
  destruct (Z.even q); nia.
Qed.
Lemma rne_range : forall a b L H, 0 < b -> L * b <= a -> a <= H * b -> L <= rne a b <= H.
Proof.
  intros a b L H Hb H1 H2. pose proof (rne_bound a b Hb) as R. set (m := rne a b) in *.
  split.
  - destruct (Z_lt_le_dec m L); [|lia]. assert (m * b <= (L - 1) * b) by nia. nia.
  - destruct (Z_lt_le_dec H m); [|lia]. assert ((H + 1) * b <= m * b) by nia. nia.
Qed.

Notation two := (Qpower (2 # 1)).
Lemma two_pos : forall e, (0 < two e)%Q.
Proof.
  intros e. destruct (Qle_lt_or_eq 0 (two e)) as [H|H]; [apply Qpower_pos; discriminate|exact H|].
  exfalso. apply (Qpower_not_0 (2 # 1) e); [discriminate|]. symmetry. exact H.
Qed.
Lemma two_Z : forall e, 0 <= e -> (two e == inject_Z (2 ^ e))%Q.
Proof. intros e He. rewrite <- (Zpower_Qpower 2 e He). reflexivity. Qed.
Lemma two_add : forall a b, (two (a + b) == two a * two b)%Q.
Proof. intros. apply Qpower_plus. discriminate. Qed.
Lemma two_le : forall a b, a <= b -> (two a <= two b)%Q.
Proof.
  intros a b H. replace b with (a + (b - a)) by lia. rewrite two_add, (two_Z (b - a)) by lia.
  pose proof (two_pos a). assert (1 <= inject_Z (2 ^ (b - a)))%Q.
  { change 1%Q with (inject_Z 1). rewrite <- Zle_Qle. pose proof (Z.pow_pos_nonneg 2 (b - a)). lia. }
  nra.
Qed.
Lemma Qfrac : forall a b, 0 < b -> (a # Z.to_pos b == inject_Z a / inject_Z b)%Q.
Proof. intros a b Hb. rewrite Qmake_Qdiv. rewrite Z2Pos.id by lia. reflexivity. Qed.
Lemma up_spec : forall m e, (up m e == inject_Z m * two e)%Q.
Proof.
  intros m e. unfold up. destruct (Z.leb_spec 0 e).
  - rewrite two_Z by lia. rewrite <- inject_Z_mult. reflexivity.
  - rewrite Qfrac by (apply Z.pow_pos_nonneg; lia). unfold Qdiv. apply Qmult_comp; [reflexivity|].
    rewrite <- two_Z by lia. rewrite <- Qpower_opp. replace (- - e) with e by lia. reflexivity.
Qed.
Lemma inj_pos : forall z, 0 < z -> (0 < inject_Z z)%Q.
Proof. intros. change 0%Q with (inject_Z 0). rewrite <- Zlt_Qlt. exact H. Qed.
Lemma down_spec : forall p q e a b, 0 < q -> down p q e = (a, b) -> 0 < b /\ (inject_Z a / inject_Z b * two e == inject_Z p / inject_Z q)%Q.
Proof.
  intros p q e a b Hq H. unfold down in H. pose proof (inj_pos q Hq) as Iq. destruct (Z.leb_spec 0 e); injection H as <- <-.
  - assert (0 < 2 ^ e) by (apply Z.pow_pos_nonneg; lia). split; [nia|]. rewrite two_Z by lia. rewrite inject_Z_mult.
    pose proof (inj_pos (2 ^ e) ltac:(lia)). field. split; lra.
  - assert (0 < 2 ^ (- e)) by (apply Z.pow_pos_nonneg; lia). split; [lia|]. rewrite inject_Z_mult.
    replace e with (- - e) at 2 by lia. rewrite (Qpower_opp (2 # 1) (- e)), (two_Z (- e)) by lia.
    pose proof (inj_pos (2 ^ (- e)) ltac:(lia)). field. split; lra.
Qed.
Lemma down_cmp : forall p q a b k, 0 < p -> 0 < q -> down p q (Z.log2 p - Z.log2 q - 52 - k) = (a, b) -> k = 0 \/ k = 1 ->
  b * 2 ^ (51 + k) <= a /\ a <= b * 2 ^ (53 + k).
Proof.
  intros p q a b k Hp Hq H Hk. pose proof (Z.log2_spec p Hp) as Bp. pose proof (Z.log2_spec q Hq) as Bq.
  pose proof (Z.log2_nonneg p) as Np. pose proof (Z.log2_nonneg q) as Nq.
  set (u := Z.log2 p) in *. set (v := Z.log2 q) in *. unfold down in H.
  destruct (Z.leb_spec 0 (u - v - 52 - k)) as [L|L]; injection H as <- <-.
  - set (e := u - v - 52 - k) in *. assert (0 < 2 ^ e) by (apply Z.pow_pos_nonneg; lia).
    assert (2 ^ u = 2 ^ v * 2 ^ e * 2 ^ (52 + k)) by (rewrite <- !Z.pow_add_r by lia; f_equal; lia).
    rewrite Z.pow_succ_r in * by lia. 
    destruct Hk; subst k; change (2 ^ (52 + 0)) with (2 * 2 ^ 51) in *; change (2 ^ (52 + 1)) with (2 * 2 ^ 52) in *;
      change (2 ^ (53 + 0)) with (2 * 2 * 2 ^ 51) in *; change (2 ^ (53 + 1)) with (2 * 2 * 2 ^ 52) in *;
      change (51 + 0) with 51 in *; change (51 + 1) with 52 in *; nia.
  - set (e := - (u - v - 52 - k)) in *. assert (0 < 2 ^ e) by (apply Z.pow_pos_nonneg; lia).
    assert (2 ^ u * 2 ^ e = 2 ^ v * 2 ^ (52 + k)) by (rewrite <- !Z.pow_add_r by lia; f_equal; lia).
    rewrite Z.pow_succ_r in * by lia.
    destruct Hk; subst k; change (2 ^ (52 + 0)) with (2 * 2 ^ 51) in *; change (2 ^ (52 + 1)) with (2 * 2 ^ 52) in *;
      change (2 ^ (53 + 0)) with (2 * 2 * 2 ^ 51) in *; change (2 ^ (53 + 1)) with (2 * 2 * 2 ^ 52) in *;
      change (51 + 0) with 51 in *; change (51 + 1) with 52 in *; nia.
Qed.

(** What rounding does to a positive fraction. *)
Lemma rnd_pos_spec : forall p q, exists m e, (rnd_pos p q == inject_Z m * two e)%Q /\ 2 ^ 52 <= m <= 2 ^ 53 /\ (inject_Z (2 ^ 52) * two e <= (Zpos p # q))%Q /\ (Qabs ((Zpos p # q) - rnd_pos p q) <= two e * (1 # 2))%Q.
Proof.
  intros p q. set (x := (Zpos p # q)%Q).
  assert (Hx : (x == inject_Z (Zpos p) / inject_Z (Zpos q))%Q) by (unfold x; apply Qmake_Qdiv).
  assert (G : forall e a b, down (Zpos p) (Zpos q) e = (a, b) -> b * 2 ^ 52 <= a -> a <= b * 2 ^ 53 ->
    (up (rne a b) e == inject_Z (rne a b) * two e)%Q /\ 2 ^ 52 <= rne a b <= 2 ^ 53 /\ (inject_Z (2 ^ 52) * two e <= x)%Q /\ (Qabs (x - up (rne a b) e) <= two e * (1 # 2))%Q).
  { intros e a b Hd L H. destruct (down_spec (Zpos p) (Zpos q) _ _ _ eq_refl Hd) as [Hb E]. rewrite <- Hx in E.
    pose proof (two_pos e) as T. pose proof (inj_pos b Hb) as Ib. split; [apply up_spec|].
    split; [apply rne_range; lia|].
    assert (D : (inject_Z a / inject_Z b * inject_Z b == inject_Z a)%Q) by (field; lra).
    split.
    - rewrite <- E. apply Qmult_le_compat_r; [|lra]. apply Qle_shift_div_l; [exact Ib|].
      rewrite <- inject_Z_mult, <- Zle_Qle. lia.
    - rewrite up_spec. pose proof (rne_bound a b Hb) as R. set (m := rne a b) in *.
      assert (S : (Qabs (inject_Z a / inject_Z b - inject_Z m) <= (1 # 2))%Q).
      { assert (U : (- inject_Z b <= 2 * (inject_Z m * inject_Z b - inject_Z a))%Q /\ (2 * (inject_Z m * inject_Z b - inject_Z a) <= inject_Z b)%Q).
        { change 2%Q with (inject_Z 2). unfold Qminus. rewrite <- !inject_Z_opp, <- !inject_Z_mult, <- inject_Z_plus, <- inject_Z_mult, <- !Zle_Qle. lia. }
        apply Qabs_Qle_condition. set (y := (inject_Z a / inject_Z b)%Q) in *.
        split; nra. }
      rewrite <- E. setoid_replace (inject_Z a / inject_Z b * two e - inject_Z m * two e)%Q with ((inject_Z a / inject_Z b - inject_Z m) * two e)%Q by ring.
      rewrite Qabs_Qmult, (Qabs_pos (two e)) by lra. rewrite (Qmult_comm (two e)). apply Qmult_le_compat_r; [exact S|lra]. }
  unfold rnd_pos. set (e0 := Z.log2 (Zpos p) - Z.log2 (Zpos q) - 52).
  destruct (down (Zpos p) (Zpos q) e0) as [a b] eqn:Ed.
  pose proof (down_cmp (Zpos p) (Zpos q) a b 0 ltac:(lia) ltac:(lia)) as C0. replace (Z.log2 (Zpos p) - Z.log2 (Zpos q) - 52 - 0) with e0 in C0 by lia.
  specialize (C0 Ed (or_introl eq_refl)).
  destruct (Z.leb_spec (b * 2 ^ 52) a) as [L|L].
  - exists (rne a b), e0. apply G; [exact Ed|exact L|apply C0].
  - destruct (down (Zpos p) (Zpos q) (e0 - 1)) as [a' b'] eqn:Ed'.
    pose proof (down_cmp (Zpos p) (Zpos q) a' b' 1 ltac:(lia) ltac:(lia) Ed' (or_intror eq_refl)) as C1.
    exists (rne a' b'), (e0 - 1). apply G; [exact Ed'|apply C1|].
    destruct (down_spec (Zpos p) (Zpos q) _ _ _ eq_refl Ed) as [Hb E]. destruct (down_spec (Zpos p) (Zpos q) _ _ _ eq_refl Ed') as [Hb' E'].
    rewrite <- E' in E. replace e0 with (e0 - 1 + 1) in E at 1 by lia. rewrite two_add in E. change (two 1) with 2%Q in E.
    pose proof (two_pos (e0 - 1)) as T. pose proof (inj_pos b Hb). pose proof (inj_pos b' Hb').
    assert (F : (inject_Z a' / inject_Z b' == inject_Z a / inject_Z b * 2)%Q) by (apply (Qmult_inj_r _ _ (two (e0 - 1))); [lra|]; rewrite <- E; ring).
    assert (K : (inject_Z a' * inject_Z b == 2 * inject_Z a * inject_Z b')%Q).
    { assert (X : (inject_Z a' / inject_Z b' * (inject_Z b * inject_Z b') == inject_Z a / inject_Z b * 2 * (inject_Z b * inject_Z b'))%Q) by (rewrite F; reflexivity).
      transitivity (inject_Z a' / inject_Z b' * (inject_Z b * inject_Z b'))%Q; [field; lra|]. rewrite X. field. lra. }
    change 2%Q with (inject_Z 2) in K. rewrite <- !inject_Z_mult in K. apply (proj1 (inject_Z_injective _ _)) in K.
    assert (M : forall k, a < b * k -> a' <= b' * (2 * k)).
    { intros k Lk. assert (a' * b < b' * (2 * k) * b) as X by (rewrite K; nia). apply Z.mul_lt_mono_pos_r in X; lia. }
    exact (M _ L).
Qed.
Lemma rnd_pos_nearest : forall p q, nearest (Zpos p # q) (rnd_pos p q).
Proof.
  intros p q. destruct (rnd_pos_spec p q) as (m & e & E & B & L & D). set (x := (Zpos p # q)%Q) in *. set (y := rnd_pos p q) in *.
  pose proof (two_pos e) as T. split; [exists m, e; split; [lia|exact E]|].
  (* multiples of the unit are not nearer *)
  assert (G : forall n, (Qabs (x - y) <= Qabs (x - inject_Z n * two e))%Q).
  { intros n. destruct (Z.eq_dec n m) as [->|Hn]; [rewrite E; apply Qle_refl|].
    assert (S : (two e <= Qabs (y - inject_Z n * two e))%Q).
    { rewrite E. setoid_replace (inject_Z m * two e - inject_Z n * two e)%Q with (inject_Z (m - n) * two e)%Q
        by (unfold Z.sub; rewrite inject_Z_plus, inject_Z_opp; ring).
      rewrite Qabs_Qmult, (Qabs_pos (two e)) by lra.
      assert (1 <= Qabs (inject_Z (m - n)))%Q; [|nra].
      change (Qabs (inject_Z (m - n))) with (inject_Z (Z.abs (m - n))). change 1%Q with (inject_Z 1). rewrite <- Zle_Qle. lia. }
    pose proof (Qabs_triangle (y - x) (x - inject_Z n * two e)) as X.
    setoid_replace (y - x + (x - inject_Z n * two e))%Q with (y - inject_Z n * two e)%Q in X by ring.
    rewrite (Qabs_Qminus y x) in X. lra. }
  intros z (m' & e' & Bm & Ez). destruct (Z_le_gt_dec e e') as [Le|Gt].
  - rewrite Ez. replace e' with (e' - e + e) by lia. rewrite two_add, two_Z by lia. rewrite Qmult_assoc, <- inject_Z_mult. apply G.
  - assert (Lz : (z <= inject_Z (2 ^ 52) * two e)%Q).
    { rewrite Ez. assert (two e' <= two (e - 1))%Q as H1 by (apply two_le; lia). pose proof (two_pos e') as T'.
      replace e with (e - 1 + 1) by lia. rewrite two_add. change (two 1) with (2 # 1)%Q.
      assert (inject_Z m' <= inject_Z (2 ^ 53))%Q as H2 by (rewrite <- Zle_Qle; lia).
      setoid_replace (inject_Z (2 ^ 52) * (two (e - 1) * (2 # 1)))%Q with (inject_Z (2 ^ 53) * two (e - 1))%Q.
      - apply Qle_trans with (inject_Z (2 ^ 53) * two e')%Q; [apply Qmult_le_compat_r; [exact H2|lra]|].
        rewrite (Qmult_comm _ (two e')), (Qmult_comm _ (two (e - 1))). apply Qmult_le_compat_r; [exact H1|discriminate].
      - change (inject_Z (2 ^ 53)) with (inject_Z (2 ^ 52 * 2)). rewrite inject_Z_mult. change (inject_Z 2) with (2 # 1)%Q. ring. }
    pose proof (G (2 ^ 52)) as X. rewrite (Qabs_pos (x - inject_Z (2 ^ 52) * two e)) in X by lra.
    rewrite (Qabs_pos (x - z)) by lra. lra.
Qed.
#[global] Instance nearest_proper : Proper (Qeq ==> Qeq ==> iff) nearest.
Proof.
  assert (G : forall x x' y y', (x == x')%Q -> (y == y')%Q -> nearest x y -> nearest x' y').
  { intros x x' y y' Hx Hy ((m & e & B & E) & N). split; [exists m, e; rewrite <- Hy; auto|].
    intros z Hz. rewrite <- Hx, <- Hy. apply N, Hz. }
  intros x x' Hx y y' Hy. split; apply G; auto; symmetry; auto.
Qed.
Lemma rnd_eq : forall x y, (x == y)%Q -> rnd x = rnd y.
Proof. intros x y H. unfold rnd. rewrite (Qred_complete _ _ H). reflexivity. Qed.
Lemma rnd_red : forall x, Qred (rnd x) = rnd x.
Proof. intros x. unfold rnd. apply Qred_complete, Qred_correct. Qed.
Lemma nearest_opp : forall x y, nearest x y -> nearest (- x) (- y).
Proof.
  assert (D : forall x, double x -> double (- x)).
  { intros x (m & e & B & E). exists (- m), e. split; [lia|]. rewrite E, inject_Z_opp. ring. }
  intros x y (Hy & N). split; [apply D, Hy|]. intros z Hz. specialize (N (- z)%Q (D z Hz)).
  setoid_replace (- x - - y)%Q with (- (x - y))%Q by ring. setoid_replace (- x - z)%Q with (- (x - - z))%Q by ring.
  rewrite !Qabs_opp. exact N.
Qed.
Lemma rnd_nearest : forall x, nearest x (rnd x).
Proof.
  intros x. unfold rnd. rewrite Qred_correct. destruct (Qred x) as [n d] eqn:E. assert (X : (x == n # d)%Q) by (rewrite <- E; symmetry; apply Qred_correct).
  rewrite X. cbn [Qnum Qden]. destruct n as [|p|p].
  - setoid_replace (0 # d)%Q with 0%Q by reflexivity. split; [exists 0, 0; split; [lia|reflexivity]|]. intros z _. change (Qabs (0 - 0)) with 0%Q. apply Qabs_nonneg.
  - apply rnd_pos_nearest.
  - change (Zneg p # d)%Q with (- (Zpos p # d))%Q. apply nearest_opp, rnd_pos_nearest.
Qed.
Lemma rnd_double : forall x, double x -> (rnd x == x)%Q.
Proof.
  intros x H. destruct (rnd_nearest x) as [_ N]. specialize (N x H). setoid_replace (x - x)%Q with 0%Q in N by ring. change (Qabs 0) with 0%Q in N.
  apply Qabs_Qle_condition in N. lra.
Qed.
Lemma double_Z : forall n, Z.abs n <= 2 ^ 53 -> double (inject_Z n).
Proof. intros n H. exists n, 0. split; [exact H|]. change (two 0) with 1%Q. ring. Qed.
Lemma rnd_Z : forall n, Z.abs n <= 2 ^ 53 -> rnd (inject_Z n) = inject_Z n.
Proof.
  intros n H. pose proof (rnd_double _ (double_Z n H)) as E. rewrite <- rnd_red. rewrite (Qred_complete _ _ E).
  unfold inject_Z. unfold Qred. cbn. pose proof (Z.ggcd_correct_divisors n 1) as C. pose proof (Z.ggcd_gcd n 1) as G.
  rewrite Z.gcd_1_r in G. destruct (Z.ggcd n 1) as [g [a b]]. cbn [fst] in G. subst g. destruct C as [C1 C2].
  cbn [snd fst]. replace b with 1 by lia. replace a with n by lia. reflexivity.
Qed.
Definition u53 : Q := 1 # (2 ^ 53).
Lemma rnd_rel : forall x, (0 <= x)%Q -> (x * (1 - u53) <= rnd x)%Q /\ (rnd x <= x * (1 + u53))%Q.
Proof.
  intros x Hx. destruct (Qlt_le_dec 0 x) as [P|P].
  - assert (H : exists p q, (x == Zpos p # q)%Q /\ (rnd x == rnd_pos p q)%Q).
    { unfold rnd. destruct (Qred x) as [n d] eqn:E. assert (X : (x == n # d)%Q) by (rewrite <- E; symmetry; apply Qred_correct).
      cbn [Qnum Qden]. destruct n as [|p|p].
      - exfalso. rewrite X in P. unfold Qlt in P. cbn in P. lia.
      - exists p, d. split; [exact X|]. rewrite Qred_correct. reflexivity.
      - exfalso. rewrite X in P. unfold Qlt in P. cbn in P. lia. }
    destruct H as (p & q & X & R). rewrite R. clear R. destruct (rnd_pos_spec p q) as (m & e & E & B & L & D). rewrite <- X in L, D.
    assert (K : (two e * (1 # 2) <= x * u53)%Q).
    { unfold u53. change (inject_Z (2 ^ 52)) with (4503599627370496 # 1)%Q in L. change (1 # 2 ^ 53)%Q with (1 # 9007199254740992)%Q. lra. }
    apply Qabs_Qle_condition in D. split; lra.
  - assert (X : (x == 0)%Q) by lra. rewrite (rnd_eq _ _ X). change (rnd 0) with 0%Q. rewrite X. split; apply Qle_lteq; right; ring.
Qed.
