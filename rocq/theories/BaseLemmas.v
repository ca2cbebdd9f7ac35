(** Lemmas about the base definitions. *)
From Verif Require Export Base.
From Coq Require Export ZifyBool ZifyNat.
#[global] Ltac Zify.zify_post_hook ::= Z.div_mod_to_equations.

Lemma wfb_nil : wfb [].
Proof. constructor. Qed.
Lemma wfb_cons b l : wfb (b :: l) <-> 0 <= b < 256 /\ wfb l.
Proof. split; [intros H; inversion H; auto | intros [? ?]; constructor; auto]. Qed.
Lemma wfb_app a b : wfb (a ++ b) <-> wfb a /\ wfb b.
Proof. unfold wfb. apply Forall_app. Qed.
Lemma wfb_firstn n l : wfb l -> wfb (firstn n l).
Proof. unfold wfb. intros H. rewrite Forall_forall in *. intros x Hx.
  apply H. rewrite <- (firstn_skipn n l). apply in_or_app; auto. Qed.
Lemma wfb_skipn n l : wfb l -> wfb (skipn n l).
Proof. unfold wfb. intros H. rewrite Forall_forall in *. intros x Hx.
  apply H. rewrite <- (firstn_skipn n l). apply in_or_app; auto. Qed.
Lemma wfb_repeat0 n : wfb (repeat 0 n).
Proof. induction n; simpl; constructor; auto; lia. Qed.
#[global] Hint Resolve wfb_nil wfb_firstn wfb_skipn wfb_repeat0 : wfb.

Lemma be_length n v : length (be n v) = n.
Proof. induction n; simpl; auto. Qed.
Lemma be_wfb n v : wfb (be n v).
Proof. induction n; cbn [be]; constructor; auto. apply Z.mod_pos_bound; lia. Qed.
#[global] Hint Resolve be_wfb : wfb.

Lemma pow256_pos n : 0 < 256 ^ Z.of_nat n.
Proof. apply Z.pow_pos_nonneg; lia. Qed.
Lemma pow256_S n : 256 ^ Z.of_nat (S n) = 256 * 256 ^ Z.of_nat n.
Proof. rewrite Nat2Z.inj_succ, Z.pow_succ_r; lia. Qed.

Lemma unbe_be n v : unbe (be n v) = v mod 256 ^ Z.of_nat n.
Proof.
  induction n as [|n IH].
  - cbn. rewrite Z.mod_1_r. reflexivity.
  - cbn [be unbe]. rewrite be_length, IH, pow256_S.
    pose proof (pow256_pos n) as Hp.
    set (p := 256 ^ Z.of_nat n) in *.
    rewrite (Z.mul_comm 256 p), Z.rem_mul_r by lia. ring.
Qed.
Lemma unbe_be_small n v : 0 <= v < 256 ^ Z.of_nat n -> unbe (be n v) = v.
Proof. intros H. rewrite unbe_be, Z.mod_small; auto. Qed.

Lemma unbe_range l : wfb l -> 0 <= unbe l < 256 ^ Z.of_nat (length l).
Proof.
  induction l as [|b l IH]; intros H.
  - cbn. lia.
  - apply wfb_cons in H as [Hb Hl]. specialize (IH Hl).
    cbn [unbe length]. rewrite pow256_S.
    pose proof (pow256_pos (length l)). nia.
Qed.

Lemma be_ext n v w : v mod 256 ^ Z.of_nat n = w mod 256 ^ Z.of_nat n -> be n v = be n w.
Proof.
  induction n as [|n IH]; intros H; [reflexivity|].
  cbn [be]. rewrite pow256_S in H. pose proof (pow256_pos n) as Hp.
  set (p := 256 ^ Z.of_nat n) in *.
  rewrite (Z.mul_comm 256 p), !Z.rem_mul_r in H by lia.
  pose proof (Z.mod_pos_bound v p Hp). pose proof (Z.mod_pos_bound w p Hp).
  pose proof (Z.mod_pos_bound (v / p) 256 ltac:(lia)).
  pose proof (Z.mod_pos_bound (w / p) 256 ltac:(lia)).
  assert ((v / p) mod 256 = (w / p) mod 256) by nia.
  assert (v mod p = w mod p) by nia.
  f_equal; auto.
Qed.

Lemma be_unbe l : wfb l -> be (length l) (unbe l) = l.
Proof.
  induction l as [|b l IH]; intros H; [reflexivity|].
  apply wfb_cons in H as [Hb Hl]. cbn [length be unbe].
  pose proof (unbe_range l Hl) as Hr. pose proof (pow256_pos (length l)) as Hp.
  f_equal.
  - rewrite Z.div_add_l, (Z.div_small (unbe l)) by lia.
    rewrite Z.add_0_r, Z.mod_small; lia.
  - transitivity (be (length l) (unbe l)); [|exact (IH Hl)]. apply be_ext.
    rewrite Z.add_comm, Z.mod_add; lia.
Qed.

Lemma unbe_inj a b : wfb a -> wfb b -> length a = length b -> unbe a = unbe b -> a = b.
Proof. intros Ha Hb Hl Hu. rewrite <- (be_unbe a Ha), <- (be_unbe b Hb), Hl, Hu. reflexivity. Qed.

Lemma fits_length n b : length (fits n b) = n.
Proof. unfold fits. rewrite app_length, firstn_length, repeat_length. lia. Qed.
Lemma fits_exact n b : length b = n -> fits n b = b.
Proof. intros <-. unfold fits. rewrite firstn_all, Nat.sub_diag. apply app_nil_r. Qed.
Lemma fits_wfb n b : wfb b -> wfb (fits n b).
Proof. intros. unfold fits. apply wfb_app; auto with wfb. Qed.
#[global] Hint Resolve fits_wfb : wfb.
Lemma fits_idem n b : fits n (fits n b) = fits n b.
Proof. apply fits_exact, fits_length. Qed.

Lemma calcsize_cons f fs : calcsize (f :: fs) = (fmt_size f + calcsize fs)%nat.
Proof. reflexivity. Qed.

Lemma pack_length f vs b : pack f vs = Ok b -> length b = calcsize f.
Proof.
  revert vs b; induction f as [|[n|n|n] f IH]; intros vs b H; cbn [pack] in H.
  - destruct vs; inversion H; reflexivity.
  - destruct vs as [|[z|x] vs]; try discriminate.
    destruct (_ && _); try discriminate.
    destruct (pack f vs) as [bs|] eqn:E; cbn in H; inversion H; subst.
    rewrite app_length, be_length, (IH _ _ E). reflexivity.
  - destruct vs as [|[z|x] vs]; try discriminate.
    destruct (pack f vs) as [bs|] eqn:E; cbn in H; inversion H; subst.
    rewrite app_length, fits_length, (IH _ _ E). reflexivity.
  - destruct (pack f vs) as [bs|] eqn:E; cbn in H; inversion H; subst.
    rewrite app_length, repeat_length, (IH _ _ E). reflexivity.
Qed.

Definition wfv (v : sval) : Prop := match v with VI _ => True | VB b => wfb b end.

Lemma pack_wfb f vs b : Forall wfv vs -> pack f vs = Ok b -> wfb b.
Proof.
  revert vs b; induction f as [|[n|n|n] f IH]; intros vs b Hw H; cbn [pack] in H.
  - destruct vs; inversion H; constructor.
  - destruct vs as [|[z|x] vs]; try discriminate. inversion Hw; subst.
    destruct (_ && _); try discriminate.
    destruct (pack f vs) as [bs|] eqn:E; cbn in H; inversion H; subst.
    apply wfb_app; split; eauto with wfb.
  - destruct vs as [|[z|x] vs]; try discriminate. inversion Hw; subst.
    destruct (pack f vs) as [bs|] eqn:E; cbn in H; inversion H; subst.
    apply wfb_app; split; eauto with wfb.
  - destruct (pack f vs) as [bs|] eqn:E; cbn in H; inversion H; subst.
    apply wfb_app; split; eauto with wfb.
Qed.

Lemma skipn_app_exact {A} (a b : list A) n : n = length a -> skipn n (a ++ b) = b.
Proof. intros ->. rewrite skipn_app, skipn_all, Nat.sub_diag. reflexivity. Qed.
Lemma firstn_app_exact {A} (a b : list A) n : n = length a -> firstn n (a ++ b) = a.
Proof. intros ->. rewrite firstn_app, firstn_all, Nat.sub_diag. cbn. apply app_nil_r. Qed.
Lemma ltb_app_false {A} (a b : list A) n : n = length a -> Nat.ltb (length (a ++ b)) n = false.
Proof. intros ->. apply Nat.ltb_ge. rewrite app_length. lia. Qed.

Theorem unpack_pack f vs b : pack f vs = Ok b -> unpack f b = Ok (norm f vs).
Proof.
  revert vs b; induction f as [|[n|n|n] f IH]; intros vs b H; cbn [pack] in H.
  - destruct vs; inversion H; reflexivity.
  - destruct vs as [|[z|x] vs]; try discriminate.
    destruct ((0 <=? z) && (z <? 256 ^ Z.of_nat n)) eqn:Hr; try discriminate.
    destruct (pack f vs) as [bs|] eqn:E; cbn in H; inversion H; subst.
    cbn [unpack norm].
    rewrite ltb_app_false, skipn_app_exact, firstn_app_exact by (symmetry; apply be_length).
    rewrite (IH _ _ E). cbn. rewrite unbe_be_small by lia. reflexivity.
  - destruct vs as [|[z|x] vs]; try discriminate.
    destruct (pack f vs) as [bs|] eqn:E; cbn in H; inversion H; subst.
    cbn [unpack norm].
    rewrite ltb_app_false, skipn_app_exact, firstn_app_exact by (symmetry; apply fits_length).
    rewrite (IH _ _ E). reflexivity.
  - destruct (pack f vs) as [bs|] eqn:E; cbn in H; inversion H; subst.
    cbn [unpack norm].
    rewrite ltb_app_false, skipn_app_exact by (symmetry; apply repeat_length).
    auto.
Qed.

Definition nopad (f : list fmt) : bool :=
  forallb (fun x => match x with FX _ => false | _ => true end) f.

Theorem pack_unpack f vs b :
  wfb b -> nopad f = true -> unpack f b = Ok vs -> pack f vs = Ok b.
Proof.
  revert vs b; induction f as [|[n|n|n] f IH]; intros vs b Hw Hn H; cbn [unpack] in H.
  - destruct b; inversion H; reflexivity.
  - destruct (Nat.ltb_spec (length b) n) as [|Hl]; try discriminate.
    destruct (unpack f (skipn n b)) as [vs'|] eqn:E; cbn in H; inversion H; subst.
    cbn [pack].
    pose proof (unbe_range (firstn n b) (wfb_firstn n b Hw)) as Hr.
    rewrite firstn_length_le in Hr by lia.
    replace (_ && _) with true by lia.
    rewrite (IH _ _ (wfb_skipn n b Hw) Hn E). cbn.
    pose proof (be_unbe (firstn n b) (wfb_firstn n b Hw)) as Hb.
    rewrite firstn_length_le in Hb by lia. rewrite Hb, firstn_skipn. reflexivity.
  - destruct (Nat.ltb_spec (length b) n) as [|Hl]; try discriminate.
    destruct (unpack f (skipn n b)) as [vs'|] eqn:E; cbn in H; inversion H; subst.
    cbn [pack].
    rewrite (IH _ _ (wfb_skipn n b Hw) Hn E). cbn.
    rewrite fits_exact by (apply firstn_length_le; lia). rewrite firstn_skipn. reflexivity.
  - discriminate.
Qed.

Lemma unpack_length f b vs : unpack f b = Ok vs -> length b = calcsize f.
Proof.
  revert vs b; induction f as [|[n|n|n] f IH]; intros vs b H; cbn [unpack] in H.
  - destruct b; inversion H; reflexivity.
  - destruct (Nat.ltb_spec (length b) n) as [|Hl]; try discriminate.
    destruct (unpack f (skipn n b)) as [vs'|] eqn:E; cbn in H; inversion H; subst.
    apply IH in E. rewrite skipn_length in E. rewrite calcsize_cons. cbn [fmt_size]. lia.
  - destruct (Nat.ltb_spec (length b) n) as [|Hl]; try discriminate.
    destruct (unpack f (skipn n b)) as [vs'|] eqn:E; cbn in H; inversion H; subst.
    apply IH in E. rewrite skipn_length in E. rewrite calcsize_cons. cbn [fmt_size]. lia.
  - destruct (Nat.ltb_spec (length b) n) as [|Hl]; try discriminate.
    apply IH in H. rewrite skipn_length in H. rewrite calcsize_cons. cbn [fmt_size]. lia.
Qed.

Lemma unpack_total f b : length b = calcsize f -> exists vs, unpack f b = Ok vs.
Proof.
  revert b; induction f as [|[n|n|n] f IH]; intros b H; cbn [unpack].
  - destruct b; [eauto|discriminate].
  - rewrite calcsize_cons in H; cbn [fmt_size] in H.
    destruct (Nat.ltb_spec (length b) n); [lia|].
    destruct (IH (skipn n b)) as [vs ->]; [rewrite skipn_length; lia|]. cbn. eauto.
  - rewrite calcsize_cons in H; cbn [fmt_size] in H.
    destruct (Nat.ltb_spec (length b) n); [lia|].
    destruct (IH (skipn n b)) as [vs ->]; [rewrite skipn_length; lia|]. cbn. eauto.
  - rewrite calcsize_cons in H; cbn [fmt_size] in H.
    destruct (Nat.ltb_spec (length b) n); [lia|].
    apply IH; rewrite skipn_length; lia.
Qed.

Lemma unpack_err f b e : unpack f b = Err e -> e = EStruct.
Proof.
  revert b; induction f as [|[n|n|n] f IH]; intros b H; cbn [unpack] in H.
  - destruct b; congruence.
  - destruct (Nat.ltb _ _); [congruence|].
    destruct (unpack f (skipn n b)) eqn:E; cbn in H; [discriminate|].
    inversion H; subst; eauto.
  - destruct (Nat.ltb _ _); [congruence|].
    destruct (unpack f (skipn n b)) eqn:E; cbn in H; [discriminate|].
    inversion H; subst; eauto.
  - destruct (Nat.ltb _ _); [congruence|]. eauto.
Qed.

(** Shape and ranges of what [unpack] returns. *)
Fixpoint shaped (f : list fmt) (vs : list sval) : Prop :=
  match f with
  | [] => vs = []
  | FX _ :: f' => shaped f' vs
  | FInt n :: f' =>
      match vs with VI z :: vs' => 0 <= z < 256 ^ Z.of_nat n /\ shaped f' vs' | _ => False end
  | FS n :: f' =>
      match vs with VB b :: vs' => length b = n /\ wfb b /\ shaped f' vs' | _ => False end
  end.

Lemma unpack_shaped f b vs : wfb b -> unpack f b = Ok vs -> shaped f vs.
Proof.
  revert vs b; induction f as [|[n|n|n] f IH]; intros vs b Hw H; cbn [unpack] in H; cbn [shaped].
  - destruct b; inversion H; reflexivity.
  - destruct (Nat.ltb_spec (length b) n) as [|Hl]; try discriminate.
    destruct (unpack f (skipn n b)) as [vs'|] eqn:E; cbn in H; inversion H; subst.
    split; [|eapply IH; [|exact E]; auto with wfb].
    pose proof (unbe_range (firstn n b) (wfb_firstn n b Hw)) as Hr.
    rewrite firstn_length_le in Hr by lia. exact Hr.
  - destruct (Nat.ltb_spec (length b) n) as [|Hl]; try discriminate.
    destruct (unpack f (skipn n b)) as [vs'|] eqn:E; cbn in H; inversion H; subst.
    split; [apply firstn_length_le; lia|].
    split; [auto with wfb|]. eapply IH; [|exact E]; auto with wfb.
  - destruct (Nat.ltb_spec (length b) n) as [|Hl]; try discriminate.
    eapply IH; [|exact H]; auto with wfb.
Qed.

(** Values that pack without error. *)
Fixpoint packable (f : list fmt) (vs : list sval) : Prop :=
  match f with
  | [] => vs = []
  | FX _ :: f' => packable f' vs
  | FInt n :: f' =>
      match vs with VI z :: vs' => 0 <= z < 256 ^ Z.of_nat n /\ packable f' vs' | _ => False end
  | FS n :: f' =>
      match vs with VB b :: vs' => packable f' vs' | _ => False end
  end.

Lemma pack_ok f vs : packable f vs -> exists b, pack f vs = Ok b.
Proof.
  revert vs; induction f as [|[n|n|n] f IH]; intros vs H; cbn [packable pack] in *.
  - subst; eauto.
  - destruct vs as [|[z|x] vs]; try contradiction. destruct H as [Hr H].
    replace (_ && _) with true by lia.
    destruct (IH _ H) as [b ->]. cbn. eauto.
  - destruct vs as [|[z|x] vs]; try contradiction.
    destruct (IH _ H) as [b ->]. cbn. eauto.
  - destruct (IH _ H) as [b ->]. cbn. eauto.
Qed.

Lemma pack_packable f vs b : pack f vs = Ok b -> packable f vs.
Proof.
  revert vs b; induction f as [|[n|n|n] f IH]; intros vs b H; cbn [packable pack] in *.
  - destruct vs; [reflexivity|discriminate].
  - destruct vs as [|[z|x] vs]; try discriminate.
    destruct ((0 <=? z) && (z <? 256 ^ Z.of_nat n)) eqn:Hr; try discriminate.
    destruct (pack f vs) as [bs|] eqn:E; cbn in H; inversion H; subst.
    split; [lia|eauto].
  - destruct vs as [|[z|x] vs]; try discriminate.
    destruct (pack f vs) as [bs|] eqn:E; cbn in H; inversion H; subst. eauto.
  - destruct (pack f vs) as [bs|] eqn:E; cbn in H; inversion H; subst. eauto.
Qed.

Lemma pack_err f vs e : pack f vs = Err e -> e = EStruct.
Proof.
  revert vs; induction f as [|[n|n|n] f IH]; intros vs H; cbn [pack] in *.
  - destruct vs; congruence.
  - destruct vs as [|[z|x] vs]; try congruence.
    destruct (_ && _); [|congruence].
    destruct (pack f vs) eqn:E; cbn in H; [discriminate|]. inversion H; subst; eauto.
  - destruct vs as [|[z|x] vs]; try congruence.
    destruct (pack f vs) eqn:E; cbn in H; [discriminate|]. inversion H; subst; eauto.
  - destruct (pack f vs) eqn:E; cbn in H; [discriminate|]. inversion H; subst; eauto.
Qed.

Lemma bindr_ok {A B} (r : res A) (k : A -> res B) b :
  bindr r k = Ok b <-> exists a, r = Ok a /\ k a = Ok b.
Proof. destruct r; cbn; split; [eauto | intros (a' & [= <-] & H); auto | discriminate
  | intros (a' & [=] & _)]. Qed.

Lemma zmem_In z l : zmem z l = true <-> In z l.
Proof. unfold zmem. rewrite existsb_exists. split.
  - intros (x & Hx & E). apply Z.eqb_eq in E. subst; auto.
  - intros H. exists z. rewrite Z.eqb_refl. auto. Qed.
Lemma enum_of_ok m z v : enum_of m z = Ok v <-> v = z /\ In z m.
Proof. unfold enum_of. destruct (zmem z m) eqn:E.
  - apply zmem_In in E. split; [intros [= <-]; auto | intros [-> _]; auto].
  - split; [discriminate|]. intros [-> H]. apply zmem_In in H. congruence. Qed.

Lemma bytes_eqb_eq a b : bytes_eqb a b = true <-> a = b.
Proof. revert b; induction a as [|x a IH]; intros [|y b]; cbn; split; try congruence.
  - intros H. apply andb_prop in H as [H1 H2]. apply Z.eqb_eq in H1. apply IH in H2. congruence.
  - intros [= -> ->]. rewrite Z.eqb_refl. apply IH. reflexivity. Qed.
Lemma bytes_eqb_refl a : bytes_eqb a a = true.
Proof. apply bytes_eqb_eq; reflexivity. Qed.

(** Bit-field helpers on Z. *)
Lemma land_ones_mod a n : 0 <= n -> Z.land a (2 ^ n - 1) = a mod 2 ^ n.
Proof. intros. rewrite <- Z.land_ones by lia. rewrite Z.ones_equiv, Z.sub_1_r. reflexivity. Qed.
Lemma lor_add_disjoint hi lo n :
  0 <= n -> 0 <= lo < 2 ^ n -> Z.lor (Z.shiftl hi n) lo = hi * 2 ^ n + lo.
Proof.
  intros Hn Hlo. rewrite Z.shiftl_mul_pow2 by lia.
  assert (Hd : Z.land (hi * 2 ^ n) lo = 0).
  { destruct (Z.eq_dec lo 0) as [->|Hnz]; [apply Z.land_0_r|].
    apply Z.bits_inj'; intros i Hi; rewrite Z.land_spec, Z.bits_0.
    destruct (Z.ltb_spec i n).
    - rewrite Z.mul_pow2_bits_low by lia; reflexivity.
    - rewrite (Z.bits_above_log2 lo i), andb_false_r; [reflexivity|lia|].
      apply Z.log2_lt_pow2; [lia|].
      apply Z.lt_le_trans with (2 ^ n); [lia|apply Z.pow_le_mono_r; lia]. }
  rewrite <- Z.lxor_lor by exact Hd. symmetry. apply Z.add_nocarry_lxor. exact Hd.
Qed.
