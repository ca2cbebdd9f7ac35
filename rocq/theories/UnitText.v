(** Proofs about capacities and delays as text (C86). *)
From Coq Require Import QArith Qabs Qpower Lqa Lia.
From Verif Require Import Base BaseLemmas EthAddrModel EthAddrProofs UserModel UnitModel UnitSpec UnitProofs.
Local Open Scope Z_scope.
Notation digit := UnitSpec.digit.
Notation blank := UnitSpec.blank.
Notation dec := UnitModel.dec.

(** ** Numerals *)
Lemma numv_fold : forall s acc, numv acc s = fold_left (fun a c => 10 * a + (c - 48)) s acc.
Proof. induction s as [|c s IH]; intros acc; cbn [numv fold_left]; [reflexivity|]. rewrite IH. f_equal. lia. Qed.
Lemma numv_app : forall a b acc, numv acc (a ++ b) = numv (numv acc a) b.
Proof. induction a as [|c a IH]; intros b acc; cbn [numv app]; [reflexivity|]. apply IH. Qed.
Lemma numv_nonneg : forall s acc, 0 <= acc -> Forall digit s -> 0 <= numv acc s.
Proof. induction s as [|c s IH]; intros acc Ha F; cbn [numv]; [exact Ha|]. inversion F as [|? ? Hc F']; subst. unfold UnitSpec.digit in Hc. apply IH; [lia|exact F']. Qed.
Lemma dec_loop_spec : forall f n acc, 0 <= n < 2 ^ Z.of_nat (S f) -> exists ds, dec_loop (S f) n acc = ds ++ acc /\ ds <> [] /\ Forall digit ds /\ numv 0 ds = n.
Proof.
  induction f as [|f IH]; intros n acc H.
  - exists [48 + n mod 10]. change (2 ^ Z.of_nat 1) with 2 in H. cbn [dec_loop]. destruct (Z.ltb_spec n 10); [|lia].
    rewrite Z.mod_small by lia. split; [reflexivity|]. split; [discriminate|]. split; [repeat constructor; lia|]. cbn [numv]. lia.
  - cbn [dec_loop]. destruct (Z.ltb_spec n 10) as [L|L].
    + exists [48 + n mod 10]. rewrite Z.mod_small by lia. split; [reflexivity|]. split; [discriminate|]. split; [repeat constructor; lia|]. cbn [numv]. lia.
    + destruct (IH (n / 10) ((48 + n mod 10) :: acc)) as (ds & E & Hn & F & V).
      { split; [apply Z.div_pos; lia|]. replace (Z.of_nat (S (S f))) with (1 + Z.of_nat (S f)) in H by lia. rewrite Z.pow_add_r in H by lia.
        apply Z.div_lt_upper_bound; lia. }
      exists (ds ++ [48 + n mod 10]). cbn [dec_loop] in E. rewrite E, <- app_assoc. split; [reflexivity|].
      pose proof (Z.mod_pos_bound n 10 ltac:(lia)).
      split; [destruct ds; discriminate|]. split; [apply Forall_app; split; [exact F|repeat constructor; lia]|].
      rewrite numv_app, V. cbn [numv]. pose proof (Z.div_mod n 10 ltac:(lia)). lia.
Qed.
Lemma dec_spec : forall n, 0 <= n -> dec n <> [] /\ Forall digit (dec n) /\ numv 0 (dec n) = n.
Proof.
  intros n H. unfold dec. destruct (Z.ltb_spec n 0); [lia|].
  destruct (dec_loop_spec (Z.to_nat (Z.log2 n)) n []) as (ds & E & Hn & F & V).
  { split; [lia|]. rewrite Nat2Z.inj_succ, Z2Nat.id by apply Z.log2_nonneg. destruct (Z.eq_dec n 0) as [->|]; [reflexivity|]. apply Z.log2_spec. lia. }
  rewrite E, app_nil_r. auto.
Qed.
Lemma nodot : forall s, Forall digit s -> ~ In 46 s.
Proof. intros s F H. rewrite Forall_forall in F. specialize (F _ H). unfold UnitSpec.digit in F. lia. Qed.
Lemma float_int : forall s, s <> [] -> Forall digit s -> float_of s = Ok (rnd (inject_Z (numv 0 s))).
Proof.
  intros s Hs F. unfold float_of. rewrite split_nosep by (apply nodot, F). destruct s as [|c s]; [contradiction|]. reflexivity.
Qed.
Lemma float_frac : forall a b, a ++ b <> [] -> Forall digit a -> Forall digit b ->
  float_of (a ++ 46 :: b) = Ok (rnd (numv 0 (a ++ b) # Z.to_pos (10 ^ zlen b))).
Proof.
  intros a b H Fa Fb. unfold float_of. rewrite split_app, split_nosep by (apply nodot; assumption).
  destruct (Nat.eqb_spec (length a + length b) 0) as [E|]; [|reflexivity]. destruct a; [destruct b; [contradiction|discriminate]|discriminate].
Qed.
Lemma numeral_float : forall s v, numeral s v -> s <> [] /\ Forall (fun c => isdig c || (c =? 46) = true) s /\ float_of s = Ok (rnd v) /\ (0 <= v)%Q.
Proof.
  assert (D : forall s, Forall digit s -> Forall (fun c => isdig c || (c =? 46) = true) s).
  { intros s F. apply Forall_impl with (2 := F). unfold UnitSpec.digit, isdig. intros c [H1 H2]. destruct (Z.leb_spec 48 c), (Z.leb_spec c 57); try lia; reflexivity. }
  intros s v H. destruct H as [a Hn F|a b Hn Fa Fb].
  - split; [exact Hn|]. split; [apply D, F|]. split.
    + rewrite float_int by assumption. unfold digits_value. rewrite numv_fold. reflexivity.
    + change 0%Q with (inject_Z 0). rewrite <- Zle_Qle. unfold digits_value. rewrite <- numv_fold. apply numv_nonneg; [lia|exact F].
  - split; [destruct a; discriminate|]. split; [apply Forall_app; split; [apply D, Fa|constructor; [reflexivity|apply D, Fb]]|].
    pose proof (numv_nonneg (a ++ b) 0 ltac:(lia) ltac:(apply Forall_app; auto)) as NN.
    assert (P : 0 < 10 ^ zlen b) by (apply Z.pow_pos_nonneg; unfold zlen; lia).
    assert (T : ((10 # 1) ^ Z.of_nat (length b) == inject_Z (10 ^ zlen b))%Q).
    { rewrite <- (Zpower_Qpower 10) by lia. reflexivity. }
    split.
    + rewrite float_frac by assumption. f_equal. apply rnd_eq. rewrite Qfrac by exact P. unfold digits_value. rewrite <- numv_fold. rewrite T. reflexivity.
    + rewrite T. unfold digits_value. rewrite <- numv_fold. apply Qle_shift_div_l; [apply inj_pos, P|]. rewrite Qmult_0_l. change 0%Q with (inject_Z 0). rewrite <- Zle_Qle. exact NN.
Qed.

(** ** Matching *)
Lemma span_app : forall f a b, Forall (fun c => f c = true) a -> (forall c r, b = c :: r -> f c = false) -> span f (a ++ b) = (a, b).
Proof.
  intros f. induction a as [|c a IH]; intros b F H; cbn [app].
  - destruct b as [|c b]; [reflexivity|]. cbn [span]. rewrite (H c b eq_refl). reflexivity.
  - inversion F; subst. cbn [span]. rewrite H2, (IH b) by assumption. reflexivity.
Qed.
Lemma blank_space : forall s, Forall blank s -> Forall (fun c => space c = true) s.
Proof. intros s F. apply Forall_impl with (2 := F). intros c [-> | ->]; reflexivity. Qed.
Definition numch (c : Z) : bool := isdig c || (c =? 46).
Lemma numch_space : forall c, numch c = true -> space c = false.
Proof.
  intros c H. unfold numch, isdig in H. unfold space. apply orb_prop in H. destruct H as [H|H].
  - apply andb_prop in H. destruct H as [H1 H2]. apply Z.leb_le in H1. apply Z.leb_le in H2.
    destruct (Z.leb_spec 9 c), (Z.leb_spec c 13), (Z.leb_spec 28 c), (Z.leb_spec c 32); try lia; reflexivity.
  - apply Z.eqb_eq in H. subst c. reflexivity.
Qed.
Lemma read_number : forall lead num mid rest, Forall blank lead -> num <> [] -> Forall (fun c => numch c = true) num -> Forall blank mid ->
  (forall c r, rest = c :: r -> numch c = false /\ space c = false) -> re_number (lead ++ num ++ mid ++ rest) = Some (num, rest).
Proof.
  intros lead num mid rest Fl Hn Fn Fm Hr. unfold re_number.
  assert (X : forall c r, num ++ mid ++ rest = c :: r -> space c = false).
  { intros c r E. destruct num as [|d n]; [contradiction|]. injection E as <- _. inversion Fn; subst. apply numch_space. assumption. }
  rewrite (span_app space lead); [|apply blank_space, Fl|exact X].
  cbn [snd]. rewrite (span_app _ num).
  - destruct num as [|d n]; [contradiction|]. rewrite (span_app space mid); [reflexivity|apply blank_space, Fm|]. intros c r E. apply (Hr c r E).
  - exact Fn.
  - intros c r E. destruct mid as [|d m]; [apply (Hr c r E)|]. injection E as <- _. inversion Fm as [|? ? Hd]; subst. destruct Hd as [-> | ->]; reflexivity.
Qed.
Lemma read_bw : forall lead num q mid units, Forall blank lead -> num <> [] -> Forall (fun c => numch c = true) num -> float_of num = Ok q -> Forall blank mid ->
  (forall c r, units = c :: r -> numch c = false /\ space c = false) -> Forall (fun c => c <> 10) units ->
  let u := match units with [] => t_bits | _ => units end in
  unhumanize_bw (BText (lead ++ num ++ mid ++ units)) =
    Ok (Some (trunc (rnd (Qmult (rnd (Qmult q (inject_Z (multiplier (nth 0 u 0))))) (inject_Z (if nth 1 u 0 =? 66 then 8 else 1)))))).
Proof.
  intros lead num q mid units Fl Hn Fn E Fm Hu Fu u. unfold unhumanize_bw. rewrite read_number by assumption.
  unfold re_rest. rewrite <- (app_nil_r units) at 1. rewrite span_app.
  - cbn [forallb]. rewrite E. reflexivity.
  - apply Forall_impl with (2 := Fu). intros c Hc. destruct (Z.eqb_spec c 10); [contradiction|reflexivity].
  - discriminate.
Qed.

(** ** Values *)
Lemma trunc_spec : forall x, (0 <= x)%Q -> (inject_Z (trunc x) <= x)%Q /\ (x < inject_Z (trunc x) + 1)%Q.
Proof.
  intros [n d] H. unfold Qle in H. cbn in H. unfold trunc. cbn [Qnum Qden]. rewrite Z.quot_div_nonneg by lia.
  pose proof (Z.div_mod n (Zpos d) ltac:(lia)). pose proof (Z.mod_pos_bound n (Zpos d) ltac:(lia)).
  split; unfold Qle, Qlt, inject_Z, Qplus; cbn [Qnum Qden]; nia.
Qed.
Lemma trunc_Z : forall n, trunc (inject_Z n) = n.
Proof. intros n. unfold trunc, inject_Z. cbn [Qnum Qden]. apply Z.quot_1_r. Qed.
Lemma unit_reads : forall units k, cap_unit units k ->
  let u := match units with [] => t_bits | _ => units end in
  (forall c r, units = c :: r -> numch c = false /\ space c = false) /\ Forall (fun c => c <> 10) units /\
  0 < multiplier (nth 0 u 0) <= 10 ^ 12 /\ multiplier (nth 0 u 0) * (if nth 1 u 0 =? 66 then 8 else 1) = k.
Proof.
  assert (One : forall c k, In (c, k) [(98, 1); (66, 1); (107, 10 ^ 3); (75, 10 ^ 3); (109, 10 ^ 6); (77, 10 ^ 6); (103, 10 ^ 9); (71, 10 ^ 9); (116, 10 ^ 12); (84, 10 ^ 12)] ->
    numch c = false /\ space c = false /\ c <> 10 /\ multiplier c = k /\ 0 < k <= 10 ^ 12).
  { intros c k H. cbn [In] in H. repeat (destruct H as [H|H]; [injection H as <- <-; repeat split; try reflexivity; try discriminate|]). contradiction. }
  intros units k H. destruct H as [|c k H|c k d r H F]; cbv zeta.
  - split; [discriminate|]. split; [constructor|]. split; [cbv; split; [reflexivity|discriminate]|reflexivity].
  - destruct (One c k H) as (A & B & C & D & E). cbn [nth]. rewrite D. split; [intros ? ? X; injection X as <- _; auto|]. split; [repeat constructor; exact C|]. split; [exact E|].
    change (0 =? 66) with false. cbv iota. lia.
  - inversion H as [|? ? H'|]; subst. destruct (One c k H') as (A & B & C & D & E). cbn [nth]. rewrite D. split; [intros ? ? X; injection X as <- _; auto|].
    split; [constructor; assumption|]. split; [exact E|]. destruct (d =? 66); lia.
Qed.
Lemma mult_bits : forall m b k v, 0 < m -> (b = 8 \/ b = 1) -> m * b = k -> (v * inject_Z k == v * inject_Z m * inject_Z b)%Q.
Proof. intros m b k v _ _ <-. rewrite inject_Z_mult. ring. Qed.
(** Three roundings in a row, for values below a quadrillion. *)
Lemma three : forall v m b, (0 <= v)%Q -> 0 < m -> (b = 8 \/ b = 1) -> (v * inject_Z m * inject_Z b <= 1000000000000000)%Q ->
  let w := rnd (rnd (rnd v * inject_Z m) * inject_Z b)%Q in
  (0 <= w)%Q /\ (w <= v * inject_Z m * inject_Z b + (1 # 2))%Q /\ (v * inject_Z m * inject_Z b <= w + (1 # 2))%Q.
Proof.
  intros v m b Hv Hm Hb Hmax w. pose proof (inj_pos m Hm) as Im. assert (Ib : (1 <= inject_Z b)%Q) by (destruct Hb; subst; discriminate).
  destruct (rnd_rel v Hv) as [L1 U1]. set (v1 := rnd v) in *. assert (N1 : (0 <= v1)%Q) by (unfold u53 in L1; change (1 # 2 ^ 53)%Q with (1 # 9007199254740992)%Q in L1; lra).
  assert (P1 : (0 <= v1 * inject_Z m)%Q) by (apply Qmult_le_0_compat; lra).
  destruct (rnd_rel _ P1) as [L2 U2]. set (v2 := rnd (v1 * inject_Z m)) in *.
  assert (N2 : (0 <= v2)%Q) by (unfold u53 in L2; change (1 # 2 ^ 53)%Q with (1 # 9007199254740992)%Q in L2; lra).
  assert (P2 : (0 <= v2 * inject_Z b)%Q) by (apply Qmult_le_0_compat; lra).
  destruct (rnd_rel _ P2) as [L3 U3]. fold w in L3, U3.
  assert (A1 : (v1 * inject_Z m <= v * inject_Z m * (1 + u53))%Q) by (setoid_replace (v * inject_Z m * (1 + u53))%Q with (v * (1 + u53) * inject_Z m)%Q by ring; apply Qmult_le_compat_r; lra).
  assert (A2 : (v * inject_Z m * (1 - u53) <= v1 * inject_Z m)%Q) by (setoid_replace (v * inject_Z m * (1 - u53))%Q with (v * (1 - u53) * inject_Z m)%Q by ring; apply Qmult_le_compat_r; lra).
  set (a := (v * inject_Z m)%Q) in *. set (a1 := (v1 * inject_Z m)%Q) in *.
  assert (B1 : (v2 * inject_Z b <= a * inject_Z b * (1 + u53) * (1 + u53))%Q).
  { setoid_replace (a * inject_Z b * (1 + u53) * (1 + u53))%Q with (a * (1 + u53) * (1 + u53) * inject_Z b)%Q by ring. apply Qmult_le_compat_r; [|lra].
    apply Qle_trans with (1 := U2). apply Qmult_le_compat_r; [exact A1|discriminate]. }
  assert (B2 : (a * inject_Z b * (1 - u53) * (1 - u53) <= v2 * inject_Z b)%Q).
  { setoid_replace (a * inject_Z b * (1 - u53) * (1 - u53))%Q with (a * (1 - u53) * (1 - u53) * inject_Z b)%Q by ring. apply Qmult_le_compat_r; [|lra].
    apply Qle_trans with (2 := L2). apply Qmult_le_compat_r; [exact A2|discriminate]. }
  set (t := (a * inject_Z b)%Q) in *. set (s := (v2 * inject_Z b)%Q) in *.
  assert (T0 : (0 <= t)%Q). { unfold t, a. apply Qmult_le_0_compat; [apply Qmult_le_0_compat; lra|lra]. }
  unfold u53 in *. change (1 # 2 ^ 53)%Q with (1 # 9007199254740992)%Q in *. lra.
Qed.
Lemma reads : forall lead num v mid units k, Forall blank lead -> numeral num v -> Forall blank mid -> cap_unit units k -> (v * inject_Z k <= 1000000000000000)%Q ->
  exists n, unhumanize_bw (BText (lead ++ num ++ mid ++ units)) = Ok (Some n) /\ (inject_Z n <= v * inject_Z k + (1 # 2))%Q /\ (v * inject_Z k < inject_Z n + (3 # 2))%Q.
Proof.
  intros lead num v mid units k Fl Hv Fm Hu Hmax. destruct (numeral_float _ _ Hv) as (Hn & Fn & E & V0).
  destruct (unit_reads _ _ Hu) as (U1 & U2 & U3 & U4).
  pose proof (read_bw lead num (rnd v) mid units Fl Hn Fn E Fm U1 U2) as R. cbv zeta in R, U3, U4. rewrite R. eexists. split; [reflexivity|].
  set (u := match units with [] => t_bits | _ => units end) in *. set (m := multiplier (nth 0 u 0)) in *. set (b := if nth 1 u 0 =? 66 then 8 else 1) in *.
  assert (Hb : b = 8 \/ b = 1) by (unfold b; destruct (nth 1 u 0 =? 66); auto).
  rewrite (mult_bits m b k v) in Hmax by (try lia; assumption). rewrite !(mult_bits m b k v) by (try lia; assumption).
  destruct (three v m b V0 ltac:(lia) Hb Hmax) as (W0 & W1 & W2). destruct (trunc_spec _ W0) as [T1 T2]. split; lra.
Qed.
Lemma reads_int : forall lead num n mid units k, Forall blank lead -> numeral num (inject_Z n) -> Forall blank mid -> cap_unit units k -> n * k <= 2 ^ 53 ->
  unhumanize_bw (BText (lead ++ num ++ mid ++ units)) = Ok (Some (n * k)).
Proof.
  intros lead num n mid units k Fl Hv Fm Hu Hmax. destruct (numeral_float _ _ Hv) as (Hn & Fn & E & V0).
  change 0%Q with (inject_Z 0) in V0. rewrite <- Zle_Qle in V0.
  destruct (unit_reads _ _ Hu) as (U1 & U2 & U3 & U4).
  pose proof (read_bw lead num _ mid units Fl Hn Fn E Fm U1 U2) as R. cbv zeta in R, U3, U4. rewrite R. clear R.
  set (u := match units with [] => t_bits | _ => units end) in *. set (m := multiplier (nth 0 u 0)) in *. set (b := if nth 1 u 0 =? 66 then 8 else 1) in *.
  assert (Hb : b = 8 \/ b = 1) by (unfold b; destruct (nth 1 u 0 =? 66); auto).
  assert (n <= n * k /\ n * m <= n * k) as [Q1 Q2] by (rewrite <- U4; clearbody m b; destruct Hb; subst; nia).
  rewrite rnd_Z by lia. rewrite <- inject_Z_mult, rnd_Z by lia. rewrite <- inject_Z_mult. replace (n * m * b) with (n * k) by lia.
  rewrite rnd_Z by lia. rewrite trunc_Z. reflexivity.
Qed.

(** ** Showing a capacity and reading it back *)
(** repr() of a float between 1 and 1000 is a numeral that float() reads back. *)
Definition prints_back (repr : Q -> text) : Prop :=
  forall x, double x -> (1 <= x)%Q -> (x < 1000)%Q -> Qred x = x -> exists v, numeral (repr x) v /\ rnd v = x.
Lemma rnd_Zeq : forall x n, (x == inject_Z n)%Q -> Z.abs n <= 2 ^ 53 -> rnd x = inject_Z n.
Proof. intros x n H B. rewrite (rnd_eq _ _ H). apply rnd_Z, B. Qed.
Lemma rnd_isdouble : forall x, double (rnd x).
Proof. intros x. apply rnd_nearest. Qed.
Definition show_as (repr : Q -> text) (b d : Z) (unit : text) : text :=
  (if b mod d =? 0 then dec (trunc (rnd (b # Z.to_pos d))) else repr (rnd (b # Z.to_pos d))) ++ 32 :: unit ++ [47; 115].
Lemma show_read : forall repr b d unit, prints_back repr -> 0 < d <= 10 ^ 12 -> 0 <= b < 1000 * d -> (d = 1 \/ d <= b) -> cap_unit (unit ++ [47; 115]) d ->
  exists n, unhumanize_bw (BText (show_as repr b d unit)) = Ok (Some n) /\ (n = b \/ n = b - 1) /\ (b mod d = 0 -> n = b).
Proof.
  intros repr b d unit Hr Hd Hb Hl Hu. unfold show_as. destruct (Z.eqb_spec (b mod d) 0) as [E|E].
  - assert (X : (b # Z.to_pos d == inject_Z (b / d))%Q).
    { rewrite Qfrac by lia. pose proof (inj_pos d ltac:(lia)). rewrite (Z.div_mod b d) at 1 by lia. rewrite E, Z.add_0_r, inject_Z_mult. field. lra. }
    assert (0 <= b / d < 1000) by (split; [apply Z.div_pos; lia|apply Z.div_lt_upper_bound; lia]).
    rewrite (rnd_Zeq _ _ X) by lia. rewrite trunc_Z. destruct (dec_spec (b / d) ltac:(lia)) as (N1 & N2 & N3).
    assert (b / d * d = b) as Y by (pose proof (Z.div_mod b d ltac:(lia)); lia).
    exists b. split; [|auto]. replace (Ok (Some b)) with (Ok (Some (b / d * d))) by (rewrite Y; reflexivity).
    apply (reads_int [] (dec (b / d)) (b / d) [32] (unit ++ [47; 115]) d); [constructor| |repeat constructor|exact Hu|].
    + replace (inject_Z (b / d)) with (inject_Z (digits_value (dec (b / d)))); [apply nu_int; assumption|]. unfold digits_value. rewrite <- numv_fold, N3. reflexivity.
    + rewrite Y. change (10 ^ 12) with 1000000000000 in Hd. change (2 ^ 53) with 9007199254740992. lia.
  - assert (Hd1 : d <> 1) by (intros ->; apply E, Z.mod_1_r). destruct Hl as [Hl|Hl]; [contradiction|].
    set (v := (b # Z.to_pos d)%Q). pose proof (inj_pos d ltac:(lia)) as Id.
    assert (V : (v * inject_Z d == inject_Z b)%Q) by (unfold v; rewrite Qfrac by lia; field; lra).
    assert (b <> d) by (intros ->; apply E, Z.mod_same; lia).
    assert (Id2 : (inject_Z d <= 1000000000000)%Q) by (change 1000000000000%Q with (inject_Z (10 ^ 12)); rewrite <- Zle_Qle; lia).
    assert (Ib : (inject_Z d + 1 <= inject_Z b)%Q) by (change 1%Q with (inject_Z 1); rewrite <- inject_Z_plus, <- Zle_Qle; lia).
    assert (Ib2 : (inject_Z b + 1 <= 1000 * inject_Z d)%Q) by (change 1%Q with (inject_Z 1); change 1000%Q with (inject_Z 1000); rewrite <- inject_Z_plus, <- inject_Z_mult, <- Zle_Qle; lia).
    assert (V1 : (1 + (1 # 1000000000000) <= v)%Q) by nra. assert (V2 : (v <= 1000 - (1 # 1000000000000))%Q) by nra.
    destruct (rnd_rel v ltac:(lra)) as [R1 R2].
    destruct (Hr (rnd v) (rnd_isdouble v)) as (v' & Hnum & Ev').
    + unfold u53 in R1. change (1 # 2 ^ 53)%Q with (1 # 9007199254740992)%Q in R1. nra.
    + unfold u53 in R2. change (1 # 2 ^ 53)%Q with (1 # 9007199254740992)%Q in R2. nra.
    + apply rnd_red.
    + destruct (numeral_float _ _ Hnum) as (Hn & Fn & Ef & _). rewrite Ev' in Ef.
      destruct (unit_reads _ _ Hu) as (U1 & U2 & U3 & U4). cbv zeta in U3, U4.
      pose proof (read_bw [] (repr (rnd v)) (rnd v) [32] (unit ++ [47; 115]) ltac:(constructor) Hn Fn Ef ltac:(repeat constructor) U1 U2) as R.
      cbn [app] in R. cbv zeta in R. rewrite R. clear R.
      set (u := match unit ++ [47; 115] with [] => t_bits | _ => unit ++ [47; 115] end) in *. set (m := multiplier (nth 0 u 0)) in *. set (k := if nth 1 u 0 =? 66 then 8 else 1) in *.
      assert (Hk : k = 8 \/ k = 1) by (unfold k; destruct (nth 1 u 0 =? 66); auto).
      assert (T : (v * inject_Z m * inject_Z k == inject_Z b)%Q) by (rewrite <- V, <- U4, inject_Z_mult; ring).
      eexists. split; [reflexivity|]. destruct (three v m k ltac:(lra) ltac:(lia) Hk) as (W0 & W1 & W2).
      { rewrite T. change 1000000000000000%Q with (inject_Z (1000 * 10 ^ 12)). rewrite <- Zle_Qle. lia. }
      destruct (trunc_spec _ W0) as [T1 T2]. rewrite T in W1, W2. set (n := trunc _) in *.
      assert (A1 : (inject_Z n < inject_Z (b + 1))%Q) by (rewrite inject_Z_plus; change (inject_Z 1) with 1%Q; lra).
      assert (A2 : (inject_Z (b - 2) < inject_Z n)%Q) by (unfold Z.sub; rewrite inject_Z_plus; change (inject_Z (- (2))) with (- (2))%Q; lra).
      rewrite <- Zlt_Qlt in A1, A2. split; [lia|]. intros E'. contradiction.
Qed.
Lemma cap_back : forall repr b, prints_back repr -> 0 <= b < 10 ^ 15 -> exists t n, humanize_bw repr b = Ok t /\ unhumanize_bw (BText t) = Ok (Some n) /\
  (n = b \/ n = b - 1) /\ (whole b -> n = b).
Proof.
  intros repr b Hr Hb.
  assert (G : forall d unit, In (d, unit) [(1, t_bits); (10 ^ 3, t_Kb); (10 ^ 6, t_Mb); (10 ^ 9, t_Gb); (10 ^ 12, t_Tb)] -> b < 1000 * d -> d = 1 \/ d <= b ->
     humanize_bw repr b = Ok (show_as repr b d unit) -> exists t n, humanize_bw repr b = Ok t /\ unhumanize_bw (BText t) = Ok (Some n) /\
  (n = b \/ n = b - 1) /\ (whole b -> n = b)).
  { intros d unit H1 H2 H3 H4. destruct (show_read repr b d unit Hr) as (n & N1 & N2 & N3); [|lia|exact H3| |].
    - cbn [In] in H1. repeat (destruct H1 as [H1|H1]; [injection H1 as <- _; split; [reflexivity|discriminate]|]). contradiction.
    - cbn [In] in H1. repeat (destruct H1 as [H1|H1]; [injection H1 as <- <-|]);
        try contradiction; match goal with |- cap_unit (?u ++ _) ?d => apply (cu_more (hd 0 u) d (nth 1 u 0) (tl (tl u) ++ [47; 115])) end;
        try (apply cu_one; cbn [In hd t_bits t_Kb t_Mb t_Gb t_Tb]; tauto); repeat constructor; discriminate.
    - exists (show_as repr b d unit), n. split; [exact H4|]. split; [exact N1|]. split; [exact N2|].
      intros (d' & W1 & W2 & W3). apply N3.
      assert (D : d = d' \/ d < d' \/ d' < d) by lia. destruct D as [->|[D|D]]; [exact W3| |].
      + (* a larger unit: only 0 *)
        assert (b < d'). { cbn [In] in H1, W1. change (10 ^ 3) with 1000 in *. change (10 ^ 6) with 1000000 in *. change (10 ^ 9) with 1000000000 in *. change (10 ^ 12) with 1000000000000 in *.
          repeat (destruct H1 as [H1|H1]; [injection H1 as H1 _; repeat (destruct W1 as [W1|W1]; [lia|]); contradiction|]). contradiction. }
        rewrite Z.mod_small in W3 by lia. subst b. apply Z.mod_0_l. cbn [In] in H1. repeat (destruct H1 as [H1|H1]; [injection H1 as <- _; discriminate|]). contradiction.
      + exfalso. cbn [In] in H1, W1. change (10 ^ 3) with 1000 in *. change (10 ^ 6) with 1000000 in *. change (10 ^ 9) with 1000000000 in *. change (10 ^ 12) with 1000000000000 in *.
          repeat (destruct H1 as [H1|H1]; [injection H1 as H1 _; repeat (destruct W1 as [W1|W1]; [lia|]); contradiction|]). contradiction. }
  unfold humanize_bw in *. 
  destruct (Z.ltb_spec b (10 ^ 3)); [apply (G 1 t_bits); [left; reflexivity|lia|auto|reflexivity]|].
  destruct (Z.ltb_spec b (10 ^ 6)); [apply (G (10 ^ 3) t_Kb); [right; left; reflexivity|lia|auto|reflexivity]|].
  destruct (Z.ltb_spec b (10 ^ 9)); [apply (G (10 ^ 6) t_Mb); [right; right; left; reflexivity|lia|auto|reflexivity]|].
  destruct (Z.ltb_spec b (10 ^ 12)); [apply (G (10 ^ 9) t_Gb); [do 3 right; left; reflexivity|lia|auto|reflexivity]|].
  destruct (Z.ltb_spec b (10 ^ 15)); [|lia].
  apply (G (10 ^ 12) t_Tb); [do 4 right; left; reflexivity|lia|auto|reflexivity].
Qed.

(** ** Delays *)
Lemma word_letter : forall c, letter c -> word c = true.
Proof.
  intros c [H1 H2]. unfold word. destruct (Z.leb_spec 97 c), (Z.leb_spec c 122); try lia; rewrite !Bool.orb_true_r; reflexivity.
Qed.
Lemma startswith_app : forall p s, startswith p (p ++ s) = true.
Proof. induction p as [|c p IH]; intros s; [reflexivity|]. cbn [app startswith]. rewrite Z.eqb_refl, IH. reflexivity. Qed.
Definition divisor_of (units : text) : option Z :=
  match units with
  | [] => Some 1
  | _ => if bytes_eqb units t_us || bytes_eqb units t_usec' || startswith t_micros units then Some (10 ^ 6)
         else if bytes_eqb units t_ms || bytes_eqb units t_msec' || startswith t_millis units then Some (10 ^ 3)
         else if bytes_eqb units t_s || startswith t_sec' units then Some 1 else None
  end.
Lemma read_delay : forall lead num q mid units tail, Forall blank lead -> num <> [] -> Forall (fun c => numch c = true) num -> float_of num = Ok q -> Forall blank mid ->
  (forall c r, units ++ tail = c :: r -> numch c = false /\ space c = false) -> Forall (fun c => word c = true) units -> (forall c r, tail = c :: r -> word c = false) ->
  unhumanize_delay (DText (lead ++ num ++ mid ++ units ++ tail)) =
    match divisor_of units with Some d => Ok (Some (rnd (Qdiv q (inject_Z d)))) | None => Ok None end.
Proof.
  intros lead num q mid units tail Fl Hn Fn E Fm Hu Fw Ht. unfold unhumanize_delay. rewrite read_number by assumption.
  rewrite span_app by assumption. cbn [fst]. rewrite E. reflexivity.
Qed.
Lemma delay_unit_ok : forall u k, delay_unit u k -> divisor_of u = Some k /\ Forall (fun c => word c = true) u /\ (forall c r, u = c :: r -> numch c = false /\ space c = false) /\ 0 < k <= 10 ^ 6.
Proof.
  assert (L : forall r, Forall letter r -> Forall (fun c => word c = true) r) by (intros r F; apply Forall_impl with (2 := F); exact word_letter).
  intros u k [[-> ->]|[[-> [->|[->|(r & -> & F)]]]|[[-> [->|[->|(r & -> & F)]]]|[-> [->|(r & -> & F)]]]]];
    (split; [try reflexivity|split; [try (repeat constructor; fail)|split; [try discriminate; intros ? ? X; try (injection X as <- _); split; reflexivity|split; [reflexivity|discriminate]]]]).
  all: try (apply Forall_app; split; [repeat constructor|apply L, F]).
Qed.
Lemma delay_reads : forall lead num v mid u k tail, Forall blank lead -> numeral num v -> Forall blank mid -> delay_unit u k ->
  (forall c r, tail = c :: r -> word c = false /\ space c = false /\ c <> 46) ->
  exists q, unhumanize_delay (DText (lead ++ num ++ mid ++ u ++ tail)) = Ok (Some q) /\
  (Qabs (q - v / inject_Z k) <= v / inject_Z k * (1 # 2 ^ 51))%Q /\ (double v -> nearest (v / inject_Z k) q).
Proof.
  intros lead num v mid u k tail Fl Hv Fm Hu Ht. destruct (numeral_float _ _ Hv) as (Hn & Fn & E & V0).
  destruct (delay_unit_ok _ _ Hu) as (D & W & S & K).
  assert (Hx : forall c r, u ++ tail = c :: r -> numch c = false /\ space c = false).
  { intros c r X. destruct u as [|c' u]; [|injection X as <- _; apply (S c' u eq_refl)]. cbn [app] in X. destruct (Ht c r X) as (H1 & H2 & H3).
    split; [|exact H2]. unfold numch. unfold word in H1. destruct (isdig c); [discriminate|]. destruct (Z.eqb_spec c 46); [contradiction|reflexivity]. }
  rewrite (read_delay lead num (rnd v) mid u tail Fl Hn Fn E Fm Hx W); [|intros c r X; apply (Ht c r X)]. rewrite D.
  eexists. split; [reflexivity|]. pose proof (inj_pos k ltac:(lia)) as Ik. split.
  - destruct (rnd_rel v V0) as [A B]. set (v1 := rnd v) in *.
    assert (M : forall y, (y / inject_Z k == y * (/ inject_Z k))%Q) by (intros; reflexivity).
    pose proof (Qinv_lt_0_compat _ Ik) as Ii. set (i := (/ inject_Z k)%Q) in *.
    assert (P : (0 <= v1)%Q) by (unfold u53 in A; change (1 # 2 ^ 53)%Q with (1 # 9007199254740992)%Q in A; lra).
    assert (P1 : (0 <= v1 * i)%Q) by (apply Qmult_le_0_compat; lra).
    destruct (rnd_rel (v1 / inject_Z k)%Q) as [A2 B2]; [rewrite M; exact P1|]. set (w := rnd (v1 / inject_Z k)) in *. rewrite M in *.
    assert (A3 : (v * i * (1 - u53) <= v1 * i)%Q) by (setoid_replace (v * i * (1 - u53))%Q with (v * (1 - u53) * i)%Q by ring; apply Qmult_le_compat_r; lra).
    assert (B3 : (v1 * i <= v * i * (1 + u53))%Q) by (setoid_replace (v * i * (1 + u53))%Q with (v * (1 + u53) * i)%Q by ring; apply Qmult_le_compat_r; lra).
    set (a := (v * i)%Q) in *. set (a1 := (v1 * i)%Q) in *. assert (0 <= a)%Q by (unfold a; apply Qmult_le_0_compat; lra).
    unfold u53 in *. change (1 # 2 ^ 53)%Q with (1 # 9007199254740992)%Q in *. change (1 # 2 ^ 51)%Q with (1 # 2251799813685248)%Q.
    apply Qabs_Qle_condition. split; lra.
  - intros Dv. assert (X : (v / inject_Z k == rnd v / inject_Z k)%Q) by (rewrite (rnd_double v Dv); reflexivity). rewrite X. apply rnd_nearest.
Qed.

Lemma ends_unit_ok : forall c, ends_unit c -> word c = false /\ space c = false /\ c <> 46.
Proof.
  intros c (A & B & C). unfold digit, letter in A. repeat split; [| |exact C].
  - destruct (word c) eqn:E; [|reflexivity]. exfalso. apply A. unfold word, isdig in E. lia.
  - destruct (space c) eqn:E; [|reflexivity]. exfalso. apply B. unfold space in E. lia.
Qed.
