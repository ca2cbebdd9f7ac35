(** Lemmas for headers of the form: fixed struct, then the rest of the packet. *)
From Verif Require Import BaseLemmas EthAddrModel EthAddrSpec EthAddrProofs Enums.

Lemma take_pack f vs b t n : n = calcsize f -> pack f vs = Ok b ->
  Nat.ltb (length (b ++ t)) n = false /\ unpack f (firstn n (b ++ t)) = Ok (norm f vs) /\ skipn n (b ++ t) = t.
Proof. intros -> H. pose proof (pack_length _ _ _ H) as Hl. repeat split.
  - apply ltb_app_false; auto.
  - rewrite firstn_app_exact by auto. apply unpack_pack; auto.
  - apply skipn_app_exact; auto. Qed.

Lemma pack_take f vs raw n : wfb raw -> nopad f = true -> n = calcsize f ->
  unpack f (firstn n raw) = Ok vs -> pack f vs = Ok (firstn n raw).
Proof. intros Hw Hn -> H. apply pack_unpack; auto with wfb. Qed.

Lemma unpack_firstn_ok f raw n : n = calcsize f -> Nat.ltb (length raw) n = false ->
  exists vs, unpack f (firstn n raw) = Ok vs.
Proof. intros -> H. apply unpack_total. apply Nat.ltb_ge in H. apply firstn_length_le. lia. Qed.

Lemma enum_in m z : In z m -> enum_of m z = Ok z.
Proof. intros. apply enum_of_ok; auto. Qed.
Lemma eth_init_bytes6 b : length b = 6%nat -> eth_init (ABytes b) = Ok b.
Proof. intros H. rewrite eth_from_bytes by lia. rewrite <- H, firstn_all. reflexivity. Qed.

(** Every member of an enumeration satisfies a decidable predicate: checked member by member. *)
Lemma enum_forall (m : list Z) (P : Z -> bool) : forallb P m = true -> forall z, In z m -> P z = true.
Proof. intros H. apply forallb_forall; auto. Qed.

Lemma ethertype_range z : In z EtherTypes -> 0 <= z < 65536.
Proof. intros H. apply (enum_forall EtherTypes (fun z => (0 <=? z) && (z <? 65536)) eq_refl) in H. lia. Qed.
Lemma proto_range z : In z IPProtocols -> 0 <= z < 256.
Proof. intros H. apply (enum_forall IPProtocols (fun z => (0 <=? z) && (z <? 256)) eq_refl) in H. lia. Qed.

Lemma pow256_1 : 256 ^ Z.of_nat 1 = 256. Proof. reflexivity. Qed.
Lemma pow256_2 : 256 ^ Z.of_nat 2 = 65536. Proof. reflexivity. Qed.
Lemma pow256_4 : 256 ^ Z.of_nat 4 = 4294967296. Proof. reflexivity. Qed.
Lemma pow256_8 : 256 ^ Z.of_nat 8 = 18446744073709551616. Proof. reflexivity. Qed.
Ltac pow256 := rewrite ?pow256_1, ?pow256_2, ?pow256_4, ?pow256_8 in *.

(** [pack f vs] succeeds when every integer is in range. *)
Ltac packable := cbn [packable]; pow256; repeat split; auto; try lia.

(** Destruct the result list of an unpack according to its format. *)
Ltac shape H :=
  cbn [shaped] in H;
  repeat match type of H with
  | match ?vs with _ => _ end => destruct vs as [|[?z|?b] ?vs]; try contradiction
  | _ /\ _ => destruct H as [? H]
  end; try subst.

Lemma zlen_app {A} (a b : list A) : zlen (a ++ b) = zlen a + zlen b.
Proof. unfold zlen. rewrite app_length. lia. Qed.
Lemma zlen_nonneg {A} (a : list A) : 0 <= zlen a.
Proof. unfold zlen. lia. Qed.

(** Bit-field lemmas used by several headers. *)
Lemma shiftr_lor_low hi lo n : 0 <= n -> 0 <= lo < 2 ^ n -> Z.shiftr (Z.lor (Z.shiftl hi n) lo) n = hi.
Proof. intros Hn Hl. rewrite lor_add_disjoint, Z.shiftr_div_pow2 by lia.
  rewrite Z.div_add_l, Z.div_small by lia. lia. Qed.
Lemma land_lor_low hi lo n : 0 <= n -> 0 <= lo < 2 ^ n -> Z.land (Z.lor (Z.shiftl hi n) lo) (2 ^ n - 1) = lo.
Proof. intros Hn Hl. rewrite lor_add_disjoint, land_ones_mod by lia.
  rewrite Z.add_comm, Z.mod_add, Z.mod_small by lia. lia. Qed.
Lemma split_bits v n : 0 <= n -> Z.lor (Z.shiftl (Z.shiftr v n) n) (Z.land v (2 ^ n - 1)) = v.
Proof. intros Hn. pose proof (Z.pow_pos_nonneg 2 n ltac:(lia) Hn).
  rewrite land_ones_mod by lia. rewrite lor_add_disjoint by (auto; apply Z.mod_pos_bound; lia).
  rewrite Z.shiftr_div_pow2 by lia. rewrite (Z.div_mod v (2 ^ n)) at 3 by lia. lia. Qed.

Lemma skipn_skipn_add {A} a b (l : list A) : skipn a (skipn b l) = skipn (b + a) l.
Proof. revert l; induction b as [|b IH]; intros l; [reflexivity|]. destruct l as [|x l]; cbn.
  - apply skipn_nil.
  - apply IH. Qed.
Lemma slice_firstn {A} a b n (l : list A) : (b + a <= n)%nat -> firstn a (skipn b (firstn n l)) = firstn a (skipn b l).
Proof. intros H. rewrite skipn_firstn_comm, firstn_firstn. f_equal. lia. Qed.
Lemma ok_inj {A} (a b : A) : Ok a = Ok b -> a = b.
Proof. congruence. Qed.
Lemma cons_inj {A} (a b : A) l m : a :: l = b :: m -> a = b /\ l = m.
Proof. intros H; split; congruence. Qed.
Lemma VB_inj a b : VB a = VB b -> a = b.
Proof. congruence. Qed.
Lemma VI_inj a b : VI a = VI b -> a = b.
Proof. congruence. Qed.

(** Number of values a format consumes. *)
Fixpoint arity (f : list fmt) : nat :=
  match f with [] => O | FX _ :: f' => arity f' | _ :: f' => S (arity f') end.
Lemma pack_app f1 : forall f2 v1 v2, length v1 = arity f1 ->
  pack (f1 ++ f2) (v1 ++ v2) = (b1 <- pack f1 v1;; b2 <- pack f2 v2;; Ok (b1 ++ b2)).
Proof.
  induction f1 as [|[n|n|n] f1 IH]; intros f2 v1 v2 H; cbn [arity] in H; cbn [app pack].
  - destruct v1; [|discriminate]. cbn. destruct (pack f2 v2); reflexivity.
  - destruct v1 as [|[z|x] v1]; try discriminate; cbn [app pack]; [|reflexivity].
    destruct (_ && _); [|reflexivity]. rewrite IH by (injection H; auto).
    destruct (pack f1 v1); cbn; [|reflexivity]. destruct (pack f2 v2); cbn; [rewrite app_assoc|]; reflexivity.
  - destruct v1 as [|[z|x] v1]; try discriminate; cbn [app pack]; [reflexivity|].
    rewrite IH by (injection H; auto).
    destruct (pack f1 v1); cbn; [|reflexivity]. destruct (pack f2 v2); cbn; [rewrite app_assoc|]; reflexivity.
  - rewrite IH by auto.
    destruct (pack f1 v1); cbn; [|reflexivity]. destruct (pack f2 v2); cbn; [rewrite app_assoc|]; reflexivity.
Qed.

Lemma pack_int n z : 0 <= z < 256 ^ Z.of_nat n -> pack [FInt n] [VI z] = Ok (be n z).
Proof. intros H. cbn [pack]. replace (_ && _) with true by lia. cbn. rewrite app_nil_r. reflexivity. Qed.

Lemma be1 v : 0 <= v < 256 -> be 1 v = [v].
Proof. intros H. unfold be. cbn [Z.of_nat]. change (256 ^ 0) with 1. rewrite Z.div_1_r, Z.mod_small by lia. reflexivity. Qed.
Lemma be2 v : 0 <= v < 65536 -> be 2 v = [v / 256; v mod 256].
Proof. intros H. unfold be. change (256 ^ Z.of_nat 1) with 256. change (256 ^ Z.of_nat 0) with 1.
  rewrite Z.div_1_r, (Z.mod_small (v / 256)) by lia. reflexivity. Qed.

Lemma pack_cons_int n f z v : 0 <= z < 256 ^ Z.of_nat n -> pack (FInt n :: f) (VI z :: v) = (b <- pack f v;; Ok (be n z ++ b)).
Proof. intros H. cbn [pack]. replace (_ && _) with true by lia. reflexivity. Qed.
Lemma pack_cons_pad n f v : pack (FX n :: f) v = (b <- pack f v;; Ok (repeat 0 n ++ b)).
Proof. reflexivity. Qed.
Lemma pack_cons_s n f x v : length x = n -> pack (FS n :: f) (VB x :: v) = (b <- pack f v;; Ok (x ++ b)).
Proof. intros H. cbn [pack]. rewrite fits_exact by auto. reflexivity. Qed.
Lemma pack_nil : pack [] [] = Ok [].
Proof. reflexivity. Qed.

Lemma pair_inj {A B} (a c : A) (b d : B) : (a, b) = (c, d) -> a = c /\ b = d.
Proof. intros H; split; congruence. Qed.
Lemma ok_pair_inj {A B} (a c : A) (b d : B) : Ok (a, b) = Ok (c, d) -> a = c /\ b = d.
Proof. intros H; split; congruence. Qed.
