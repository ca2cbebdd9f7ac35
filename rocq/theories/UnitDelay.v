(** Proofs about showing delays and reading them back; a repr() that prints exactly (C86). *)
From Coq Require Import QArith Qabs Qpower Lqa Lia Zpow_facts Znumtheory.
From Verif Require Import Base BaseLemmas EthAddrModel EthAddrProofs UserModel UnitModel UnitSpec UnitProofs UnitText.
Local Open Scope Z_scope.
Notation digit := UnitSpec.digit.
Notation blank := UnitSpec.blank.
Notation dec := UnitModel.dec.

Definition plural (n : Z) : text := if 1 <? n then [115] else [].
Definition micros_of (x : Q) : Z := rne (Z.abs (Qnum x) * 10 ^ 6) (Zpos (Qden x)).
Lemma shown_gen : forall repr x n, 0 <= Qnum x -> micros_of x = n -> 0 < n <= 2 ^ 50 ->
  humanize_delay repr x =
    if n mod 1000 =? 0 then (if n mod 1000000 =? 0 then dec (n / 1000000) ++ t_sec ++ plural (n / 1000000) else dec (n / 1000) ++ t_msec ++ plural (n / 1000))
    else dec n ++ t_usec ++ plural n.
Proof.
  intros repr x n Hx En Hn. change (2 ^ 50) with 1125899906842624 in Hn. unfold humanize_delay. fold (micros_of x). rewrite En. clear En.
  change (10 ^ 6) with 1000000. change (10 ^ 3) with 1000.
  destruct (Z.ltb_spec (Qnum x) 0) as [|_]; [lia|]. cbv zeta.
  set (mi := n mod 1000). set (ml := n / 1000 mod 1000). set (se := n / 1000000).
  assert (Hmi : 0 <= mi < 1000) by (apply Z.mod_pos_bound; lia). assert (Hml : 0 <= ml < 1000) by (apply Z.mod_pos_bound; lia).
  assert (D1 : n = 1000 * (n / 1000) + mi) by (apply Z.div_mod; lia).
  assert (D2 : n / 1000 = 1000 * (n / 1000 / 1000) + ml) by (apply Z.div_mod; lia).
  assert (D3 : n / 1000 / 1000 = se) by (unfold se; rewrite Z.div_div by lia; reflexivity).
  rewrite D3 in D2.
  assert (D4 : n mod 1000000 = 1000 * ml + mi).
  { symmetry. apply Z.mod_unique with (q := se); [lia|]. lia. }
  assert (E : rnd (rnd (inject_Z mi + rnd (inject_Z (1000 * ml))) + rnd (inject_Z 1000000 * rnd (inject_Z se)))%Q = inject_Z n).
  { change (2 ^ 53) with 9007199254740992 in *.
    rewrite (rnd_Z (1000 * ml)) by (change (2 ^ 53) with 9007199254740992; lia). rewrite (rnd_Z se) by (change (2 ^ 53) with 9007199254740992; lia).
    rewrite (rnd_Zeq (inject_Z mi + inject_Z (1000 * ml)) (mi + 1000 * ml)) by (try (rewrite inject_Z_plus; reflexivity); change (2 ^ 53) with 9007199254740992; lia).
    rewrite (rnd_Zeq (inject_Z 1000000 * inject_Z se) (1000000 * se)) by (try (rewrite inject_Z_mult; reflexivity); change (2 ^ 53) with 9007199254740992; lia).
    apply rnd_Zeq; [|change (2 ^ 53) with 9007199254740992; lia]. rewrite <- inject_Z_plus. f_equal. apply Qeq_refl || (replace (mi + 1000 * ml + 1000000 * se) with n by lia; reflexivity). }
  rewrite E, trunc_Z. clear E.
  assert (T : forall d k, 0 < d -> n = d * k -> trunc (rnd (inject_Z n / inject_Z d)) = k).
  { intros d k Hd Ek. rewrite (rnd_Zeq _ k), trunc_Z; [reflexivity| |change (2 ^ 53) with 9007199254740992; nia].
    rewrite Ek, inject_Z_mult. pose proof (inj_pos d Hd). field. lra. }
  destruct (Z.ltb_spec 0 mi) as [L1|L1].
  - destruct (Z.eqb_spec mi 0); [lia|]. reflexivity.
  - assert (mi = 0) as Z1 by lia. destruct (Z.eqb_spec mi 0); [|lia]. rewrite D4.
    destruct (Z.ltb_spec 0 ml) as [L2|L2].
    + destruct (Z.eqb_spec (1000 * ml + mi) 0); [lia|]. rewrite (T 1000 (n / 1000)) by lia. reflexivity.
    + assert (ml = 0) as Z2 by lia. destruct (Z.eqb_spec (1000 * ml + mi) 0); [|lia].
      destruct (Z.ltb_spec 0 se) as [L3|L3]; [|lia]. rewrite (T 1000000 se) by lia. reflexivity.
Qed.
Lemma micros_near : forall x, (Qabs (x * 1000000 - inject_Z (micros_of x)) <= (1 # 2))%Q \/ Qnum x < 0.
Proof.
  intros [p q]. destruct (Z_lt_le_dec p 0) as [|H]; [right; exact l|left]. unfold micros_of. cbn [Qnum Qden]. rewrite Z.abs_eq by lia.
  pose proof (rne_bound (p * 10 ^ 6) (Zpos q) ltac:(lia)) as R. set (m := rne _ _) in *. change (10 ^ 6) with 1000000 in R.
  apply Qabs_Qle_condition. unfold Qle, Qminus, Qplus, Qmult, Qopp, inject_Z. cbn [Qnum Qden]. lia.
Qed.
Lemma micros_unique : forall x n, (0 <= x)%Q -> (Qabs (x * 1000000 - inject_Z n) < (1 # 2))%Q -> micros_of x = n.
Proof.
  intros x n Hx H. destruct (micros_near x) as [M|M]; [|unfold Qle in Hx; cbn in Hx; lia].
  set (m := micros_of x) in *. apply Qabs_Qlt_condition in H. apply Qabs_Qle_condition in M.
  assert (A : (inject_Z m < inject_Z (n + 1))%Q) by (rewrite inject_Z_plus; change (inject_Z 1) with 1%Q; lra).
  assert (B : (inject_Z (n - 1) < inject_Z m)%Q) by (unfold Z.sub; rewrite inject_Z_plus; change (inject_Z (- (1))) with (- (1))%Q; lra).
  rewrite <- Zlt_Qlt in A, B. lia.
Qed.
Lemma nearest_micros : forall n x, 0 <= n <= 2 ^ 50 -> nearest (inject_Z n / 1000000) x -> (0 <= x)%Q /\ micros_of x = n.
Proof.
  intros n x Hn [_ N]. assert (In : (0 <= inject_Z n)%Q) by (change 0%Q with (inject_Z 0); rewrite <- Zle_Qle; lia).
  assert (In2 : (inject_Z n <= 1125899906842624)%Q) by (change 1125899906842624%Q with (inject_Z (2 ^ 50)); rewrite <- Zle_Qle; lia).
  set (v := (inject_Z n / 1000000)%Q) in *. assert (V : (v * 1000000 == inject_Z n)%Q) by (unfold v; field).
  assert (V0 : (0 <= v)%Q) by lra.
  assert (x_ge : (0 <= x)%Q).
  { destruct (Qlt_le_dec x 0) as [L|]; [|assumption]. exfalso. specialize (N 0%Q (double_Z 0 ltac:(lia))).
    rewrite (Qabs_pos (v - x)), (Qabs_pos (v - 0)) in N by lra. lra. }
  split; [exact x_ge|]. apply micros_unique; [exact x_ge|].
  destruct (rnd_rel v V0) as [A B]. specialize (N (rnd v) (rnd_isdouble v)).
  unfold u53 in *. change (1 # 2 ^ 53)%Q with (1 # 9007199254740992)%Q in *.
  assert (Qabs (v - rnd v) <= v * (1 # 9007199254740992))%Q by (apply Qabs_Qle_condition; split; lra).
  assert (C : (Qabs (v - x) <= v * (1 # 9007199254740992))%Q) by lra. apply Qabs_Qle_condition in C. apply Qabs_Qlt_condition. split; lra.
Qed.
Lemma Qnum_nonneg : forall x, (0 <= x)%Q -> 0 <= Qnum x.
Proof. intros x H. unfold Qle in H. cbn in H. lia. Qed.
Lemma dec_numeral : forall n, 0 <= n -> numeral (dec n) (inject_Z n).
Proof.
  intros n H. destruct (dec_spec n H) as (A & B & C).
  replace (inject_Z n) with (inject_Z (digits_value (dec n))); [apply nu_int; assumption|]. unfold digits_value. rewrite <- numv_fold, C. reflexivity.
Qed.
Lemma shows : forall repr x n, (0 <= x)%Q -> micros_of x = n -> 0 < n <= 2 ^ 50 -> shown n (humanize_delay repr x).
Proof.
  intros repr x n Hx En Hn. rewrite (shown_gen repr x n (Qnum_nonneg x Hx) En Hn). unfold shown.
  destruct (Z.eqb_spec (n mod 1000) 0) as [E1|E1].
  - destruct (Z.eqb_spec (n mod 1000000) 0) as [E2|E2].
    + exists (dec (n / 1000000)), 1000000, [115; 101; 99]. split; [reflexivity|]. split; [apply dec_numeral, Z.div_pos; lia|]. right; right; auto.
    + exists (dec (n / 1000)), 1000, [109; 115; 101; 99]. split; [reflexivity|]. split; [apply dec_numeral, Z.div_pos; lia|]. right; left; auto.
  - exists (dec n), 1, [181; 115; 101; 99]. rewrite Z.div_1_r. split; [reflexivity|]. split; [apply dec_numeral; lia|]. auto.
Qed.
Lemma tiny : forall repr x, (0 <= x)%Q -> micros_of x = 0 -> humanize_delay repr x = repr x ++ t_sec ++ (if Qle_bool x 1 then [] else [115]).
Proof.
  intros repr x Hx E. unfold humanize_delay. fold (micros_of x). rewrite E.
  replace (if Qnum x <? 0 then - (0 / 10 ^ 6) else 0 / 10 ^ 6) with 0 by (destruct (Qnum x <? 0); reflexivity).
  change (0 mod 10 ^ 3) with 0. change (0 / 10 ^ 3 mod 10 ^ 3) with 0. change (0 <? 0) with false. cbv iota zeta. unfold more_than_one. destruct (Qle_bool x 1); reflexivity.
Qed.

(** Reading back what is shown. *)
Lemma plural_word : forall n, Forall (fun c => word c = true) (plural n).
Proof. intros n. unfold plural. destruct (1 <? n); repeat constructor. Qed.
Lemma numeral_numch : forall num v, numeral num v -> num <> [] /\ Forall (fun c => numch c = true) num /\ float_of num = Ok (rnd v).
Proof. intros num v H. destruct (numeral_float _ _ H) as (A & B & C & _). auto. Qed.
Lemma back_gen : forall num v unit, numeral num v -> Forall (fun c => word c = true) unit -> (forall c r, unit = c :: r -> numch c = false /\ space c = false) ->
  unhumanize_delay (DText (num ++ 32 :: unit)) = match divisor_of unit with Some d => Ok (Some (rnd (Qdiv (rnd v) (inject_Z d)))) | None => Ok None end.
Proof.
  intros num v unit H F S. destruct (numeral_numch _ _ H) as (A & B & C).
  pose proof (read_delay [] num (rnd v) [32] unit [] ltac:(constructor) A B C ltac:(repeat constructor)) as R.
  rewrite !app_nil_r in R. apply R; [exact S|exact F|discriminate].
Qed.
Lemma back : forall n t, 0 < n <= 2 ^ 50 -> shown n t ->
  ((n mod 1000000 = 0 \/ n = 1000) -> exists q, unhumanize_delay (DText t) = Ok (Some q) /\ nearest (inject_Z n / 1000000) q) /\
  (~ (n mod 1000000 = 0 \/ n = 1000) -> unhumanize_delay (DText t) = Ok None).
Proof.
  intros n t Hn (num & k & unit & -> & Hnum & Hc). change (2 ^ 50) with 1125899906842624 in Hn.
  assert (G : forall w, Forall (fun c => word c = true) (unit ++ (if 1 <? n / k then [115] else [])) -> (forall c r, unit ++ (if 1 <? n / k then [115] else []) = c :: r -> numch c = false /\ space c = false) ->
     divisor_of (unit ++ (if 1 <? n / k then [115] else [])) = w ->
     unhumanize_delay (DText (num ++ 32 :: unit ++ (if 1 <? n / k then [115] else []))) = match w with Some d => Ok (Some (rnd (Qdiv (rnd (inject_Z (n / k))) (inject_Z d)))) | None => Ok None end).
  { intros w F S <-. apply back_gen; assumption. }
  assert (B : forall j, 0 < j -> n = j * (n / j) -> nearest (inject_Z n / 1000000) (rnd (rnd (inject_Z (n / j)) / (1000000 / inject_Z j)))%Q).
  { intros j Hj Ej. pose proof (inj_pos j Hj). assert (0 <= n / j <= n) by (split; [apply Z.div_pos; lia|apply Z.div_le_upper_bound; nia]).
    rewrite rnd_Z by (change (2 ^ 53) with 9007199254740992; lia).
    setoid_replace (inject_Z n / 1000000)%Q with (inject_Z (n / j) / (1000000 / inject_Z j))%Q; [apply rnd_nearest|].
    rewrite Ej at 1. rewrite inject_Z_mult. field. lra. }
  destruct Hc as [(-> & -> & E)|[(-> & -> & E1 & E2)|(-> & -> & E)]].
  - rewrite (G None); [|destruct (1 <? n / 1); repeat constructor|destruct (1 <? n / 1); intros c r X; injection X as <- _; split; reflexivity|destruct (1 <? n / 1); reflexivity].
    split; [|reflexivity]. intros [H|H]; exfalso; apply E; [|subst n; reflexivity].
    apply Z.mod_divide in H; [|lia]. destruct H as [z ->]. replace (z * 1000000) with (z * 1000 * 1000) by ring. apply Z.mod_mul. lia.
  - assert (Q : n = 1000 * (n / 1000)) by (pose proof (Z.div_mod n 1000 ltac:(lia)); lia). split.
    + intros [H|H]; [contradiction|]. subst n. change (1000 / 1000) with 1 in *. change (1 <? 1) with false in *. cbv iota in *. rewrite (G (Some 1000)); [|repeat constructor|intros c r X; injection X as <- _; split; reflexivity|reflexivity].
      eexists. split; [reflexivity|]. change (inject_Z 1000 / 1000000)%Q with (1000 / 1000000)%Q. specialize (B 1000 ltac:(lia) eq_refl). exact B.
    + intros H. destruct (Z.ltb_spec 1 (n / 1000)) as [L|L]; [|exfalso; apply H; right; lia].
      rewrite (G None); [reflexivity|repeat constructor|intros c r X; injection X as <- _; split; reflexivity|reflexivity].
  - assert (Q : n = 1000000 * (n / 1000000)) by (pose proof (Z.div_mod n 1000000 ltac:(lia)); lia). split; [|intros H; exfalso; apply H; left; exact E].
    intros _. rewrite (G (Some 1)); [|destruct (1 <? n / 1000000); repeat constructor|destruct (1 <? n / 1000000); intros c r X; injection X as <- _; split; reflexivity|destruct (1 <? n / 1000000); reflexivity].
    eexists. split; [reflexivity|]. rewrite (rnd_eq (rnd (inject_Z (n / 1000000)) / inject_Z 1) (rnd (inject_Z (n / 1000000)) / (1000000 / inject_Z 1000000))) by (apply Qdiv_comp; reflexivity).
    exact (B 1000000 eq_refl Q).
Qed.

(** ** An exact repr(): every double has a finite decimal expansion. *)
Fixpoint fixdigits (k : nat) (n : Z) : text := match k with O => [] | S k' => fixdigits k' (n / 10) ++ [48 + n mod 10] end.
Lemma fixdigits_spec : forall k n, Forall digit (fixdigits k n) /\ length (fixdigits k n) = k /\ forall acc, numv acc (fixdigits k n) = acc * 10 ^ Z.of_nat k + n mod 10 ^ Z.of_nat k.
Proof.
  induction k as [|k IH]; intros n.
  - split; [constructor|]. split; [reflexivity|]. intros acc. cbn [fixdigits numv]. change (10 ^ Z.of_nat 0) with 1. rewrite Z.mod_1_r. lia.
  - destruct (IH (n / 10)) as (A & B & C). pose proof (Z.mod_pos_bound n 10 ltac:(lia)). cbn [fixdigits].
    split; [apply Forall_app; split; [exact A|repeat constructor; lia]|]. split; [rewrite app_length, B; cbn [length]; lia|].
    intros acc. rewrite numv_app, C. cbn [numv]. replace (Z.of_nat (S k)) with (Z.of_nat k + 1) by lia. rewrite Z.pow_add_r by lia. change (10 ^ 1) with 10.
    assert (P : 0 < 10 ^ Z.of_nat k) by (apply Z.pow_pos_nonneg; lia). rewrite (Z.mul_comm (10 ^ Z.of_nat k) 10), Z.rem_mul_r by lia. lia.
Qed.
Definition exact_repr (x : Q) : text :=
  let k := Z.log2 (Zpos (Qden x)) in let n := Qnum x * 5 ^ k in
  dec (n / 10 ^ k) ++ 46 :: fixdigits (Z.to_nat k) n.
Lemma double_den : forall x, double x -> Qred x = x -> exists k, 0 <= k /\ Zpos (Qden x) = 2 ^ k.
Proof.
  intros x (m & e & _ & E) R. set (j := Z.max 0 (- e)).
  assert (X : (x * inject_Z (2 ^ j) == inject_Z (m * 2 ^ (e + j)))%Q).
  { rewrite E, inject_Z_mult, <- !two_Z by lia. rewrite <- Qmult_assoc, <- two_add. reflexivity. }
  assert (D : (Zpos (Qden x) | 2 ^ j)).
  { destruct x as [a b]. unfold Qeq, Qmult, inject_Z in X. cbn [Qnum Qden] in X. rewrite Z.mul_1_r, Pos.mul_1_r in X.
    assert (Gc : Z.gcd a (Zpos b) = 1).
    { unfold Qred in R. pose proof (Z.ggcd_gcd a (Zpos b)) as G1. pose proof (Z.ggcd_correct_divisors a (Zpos b)) as G2. destruct (Z.ggcd a (Zpos b)) as [g [u v]]. cbn [fst snd] in *.
      injection R as R1 R2. destruct G2 as [G2 G3]. rewrite <- G1. assert (0 <= g) by (rewrite G1; apply Z.gcd_nonneg). assert (0 < v) by nia.
      assert (v = Zpos b) by (rewrite <- R2; rewrite Z2Pos.id by lia; reflexivity). nia. }
    cbn [Qden]. apply Z.gauss with a; [|rewrite Z.gcd_comm; exact Gc]. exists (m * 2 ^ (e + j)). lia. }
  destruct (Zdivide_power_2 (Zpos (Qden x)) 2 j) as [k Ek]; [lia|lia|exact prime_2|exact D|].
  exists k. split; [|exact Ek]. destruct (Z_lt_le_dec k 0) as [L|]; [|assumption]. rewrite Z.pow_neg_r in Ek by lia. lia.
Qed.
Lemma exact_repr_back : prints_back exact_repr.
Proof.
  intros x Dx L1 L2 R. destruct (double_den x Dx R) as (k & Hk & Ek). unfold exact_repr. rewrite Ek, Z.log2_pow2 by lia.
  assert (Nx : 0 <= Qnum x) by (apply Qnum_nonneg; lra). assert (P5 : 0 < 5 ^ k) by (apply Z.pow_pos_nonneg; lia). assert (P10 : 0 < 10 ^ k) by (apply Z.pow_pos_nonneg; lia).
  set (n := Qnum x * 5 ^ k). assert (Nn : 0 <= n) by nia.
  destruct (dec_spec (n / 10 ^ k) ltac:(apply Z.div_pos; lia)) as (A & B & C). destruct (fixdigits_spec (Z.to_nat k) n) as (F1 & F2 & F3).
  eexists. split; [apply nu_frac; [|exact B|exact F1]|].
  - intros X. apply A. apply app_eq_nil in X. apply X.
  - rewrite F2. unfold digits_value. rewrite <- numv_fold, numv_app, C, F3, Z2Nat.id by lia.
    replace (n / 10 ^ k * 10 ^ k + n mod 10 ^ k) with n by (pose proof (Z.div_mod n (10 ^ k)); lia).
    assert (X : (inject_Z n / (10 # 1) ^ k == x)%Q).
    { rewrite <- (Zpower_Qpower 10) by lia. unfold n. rewrite inject_Z_mult. replace (10 ^ k) with (2 ^ k * 5 ^ k) by (rewrite <- Z.pow_mul_l; reflexivity).
      rewrite inject_Z_mult, <- Ek. rewrite (Qmake_Qdiv (Qnum x) (Qden x)) || idtac. destruct x as [a b]. cbn [Qnum Qden]. rewrite (Qmake_Qdiv a b).
      pose proof (inj_pos _ P5). pose proof (inj_pos (Zpos b) ltac:(lia)). field. lra. }
    rewrite (rnd_eq _ _ X), <- rnd_red. rewrite (Qred_complete _ _ (rnd_double x Dx)). exact R.
Qed.
