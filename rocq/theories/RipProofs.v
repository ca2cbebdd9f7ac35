From Verif Require Import BaseLemmas CodecLemmas RipModel.

(** The mask of a prefix length, as a number; network addresses are multiples of the host part's size. *)
Definition mask_value (p : Z) : Z := 2 ^ 32 - 2 ^ (32 - p).

Definition plens : list Z := map Z.of_nat (seq 0 33).
Lemma in_plens p : 0 <= p <= 32 -> In p plens.
Proof. intros H. apply in_map_iff. exists (Z.to_nat p). split; [lia|]. apply in_seq. lia. Qed.

Lemma masks_ok p : 0 <= p <= 32 -> netmask_of p = mask_value p /\ prefix_from_mask (mask_value p) = Some p.
Proof. intros H. 
  assert (T : forallb (fun p => (netmask_of p =? mask_value p) && match prefix_from_mask (mask_value p) with Some q => q =? p | None => false end) plens = true) by (vm_compute; reflexivity).
  rewrite forallb_forall in T. specialize (T p (in_plens p H)). apply andb_prop in T as [T1 T2]. split; [lia|].
  destruct (prefix_from_mask (mask_value p)) as [q|]; [|discriminate]. f_equal. lia. Qed.

Lemma righthand_zeros_range m : 0 <= righthand_zeros m <= 32.
Proof. unfold righthand_zeros, bit_length. destruct (m =? 0); [lia|].
  set (x := Z.land (Z.lnot m) (m - 1)). destruct (x =? 0); [lia|]. pose proof (Z.log2_nonneg x). lia. Qed.

Lemma prefix_from_int_range m p : prefix_from_int m = Some p -> 0 <= p <= 32.
Proof. unfold prefix_from_int. cbv zeta. pose proof (righthand_zeros_range m) as H. set (x := righthand_zeros m) in *. destruct (Z.shiftr m x =? _); [|discriminate].
  intros E. assert (p = 32 - x) by congruence. lia. Qed.
Lemma prefix_range m p : prefix_from_mask m = Some p -> 0 <= p <= 32.
Proof. unfold prefix_from_mask. destruct (prefix_from_int m) eqn:E; intros H; [injection H as <-|]; eapply prefix_from_int_range; eauto. Qed.

(** Exactly the contiguous masks and their complements are accepted. *)
Lemma odd_part m : 0 < m -> exists k q, 0 <= k /\ 0 <= q /\ m = 2 ^ k * (2 * q + 1).
Proof. intros H. assert (G : forall n, forall m, 0 < m -> m <= Z.of_nat n -> exists k q, 0 <= k /\ 0 <= q /\ m = 2 ^ k * (2 * q + 1)).
  { induction n as [|n IH]; intros x Hx Hn; [lia|].
    destruct (Z.eq_dec (x mod 2) 0) as [E|E].
    - destruct (IH (x / 2)) as (k & q & H1 & H2 & H3); [lia|lia|]. exists (k + 1), q. split; [lia|]. split; [lia|].
      rewrite Z.pow_add_r by lia. change (2 ^ 1) with 2. lia.
    - exists 0, (x / 2). change (2 ^ 0) with 1. lia. }
  apply (G (Z.to_nat m) m); lia. Qed.

Lemma low_bits k q : 0 <= k -> 0 <= q -> Z.land (Z.lnot (2 ^ k * (2 * q + 1))) (2 ^ k * (2 * q + 1) - 1) = Z.ones k.
Proof. intros Hk Hq. apply Z.bits_inj'. intros n Hn. rewrite Z.land_spec, Z.lnot_spec by lia.
  assert (E1 : forall i, 0 <= i -> Z.testbit (2 ^ k * (2 * q + 1)) i = if i <? k then false else if i =? k then true else Z.testbit q (i - k - 1)).
  { intros i Hi. rewrite Z.mul_comm. destruct (Z.ltb_spec i k); [apply Z.mul_pow2_bits_low; lia|].
    rewrite Z.mul_pow2_bits by lia.
    destruct (Z.eqb_spec i k) as [->|]; [rewrite Z.sub_diag; apply Z.testbit_odd_0|].
    rewrite <- (Z.testbit_odd_succ q (i - k - 1)) by lia. f_equal. lia. }
  assert (E2 : forall i, 0 <= i -> Z.testbit (2 ^ k * (2 * q + 1) - 1) i = if i <? k then true else if i =? k then false else Z.testbit q (i - k - 1)).
  { intros i Hi. replace (2 ^ k * (2 * q + 1) - 1) with (2 ^ k * (2 * q) + Z.ones k).
    2:{ rewrite Z.ones_equiv. lia. }
    assert (Ed : 2 ^ k * (2 * q) + Z.ones k = Z.lor (Z.shiftl (2 * q) k) (Z.ones k)).
    { rewrite lor_add_disjoint; [lia|lia|]. rewrite Z.ones_equiv. pose proof (Z.pow_pos_nonneg 2 k ltac:(lia) Hk). lia. }
    rewrite Ed, Z.lor_spec, Z.shiftl_spec by lia.
    destruct (Z.ltb_spec i k); [rewrite Z.ones_spec_low by lia; apply Bool.orb_true_r|].
    rewrite Z.ones_spec_high, Bool.orb_false_r by lia.
    destruct (Z.eqb_spec i k) as [->|]; [rewrite Z.sub_diag; apply Z.testbit_even_0|].
    rewrite <- (Z.testbit_even_succ q (i - k - 1)) by lia. f_equal. lia. }
  rewrite E1, E2 by lia. destruct (Z.ltb_spec n k); [rewrite Z.ones_spec_low by lia; reflexivity|].
  rewrite Z.ones_spec_high by lia. destruct (n =? k); [reflexivity|]. destruct (Z.testbit q (n - k - 1)); reflexivity. Qed.

Lemma righthand_zeros_odd k q : 0 <= k <= 32 -> 0 <= q -> righthand_zeros (2 ^ k * (2 * q + 1)) = k.
Proof. intros Hk Hq. unfold righthand_zeros. pose proof (Z.pow_pos_nonneg 2 k ltac:(lia) ltac:(lia)).
  destruct (Z.eqb_spec (2 ^ k * (2 * q + 1)) 0); [nia|]. rewrite low_bits by lia. unfold bit_length.
  destruct (Z.eq_dec k 0) as [->|]; [reflexivity|]. rewrite Z.ones_equiv.
  assert (2 ^ 1 <= 2 ^ k) by (apply Z.pow_le_mono_r; lia). change (2 ^ 1) with 2 in *.
  replace (Z.pred (2 ^ k) =? 0) with false by lia. rewrite Z.log2_pred_pow2 by lia. lia. Qed.

Lemma prefix_from_int_inv m p : 0 <= m < 2 ^ 32 -> prefix_from_int m = Some p -> m = mask_value p.
Proof. intros Hm H. pose proof (prefix_from_int_range _ _ H) as Hp. unfold prefix_from_int in H. cbv zeta in H.
  destruct (Z.eq_dec m 0) as [->|Hn].
  { change (righthand_zeros 0) with 32 in H. cbn in H. injection H as <-. reflexivity. }
  destruct (odd_part m ltac:(lia)) as (k & q & Hk & Hq & E).
  assert (k < 32). { destruct (Z_lt_dec k 32); auto. exfalso. assert (2 ^ 32 <= 2 ^ k) by (apply Z.pow_le_mono_r; lia). nia. }
  rewrite E in H. rewrite righthand_zeros_odd in H by lia.
  rewrite Z.shiftr_div_pow2, Z.shiftl_mul_pow2 in H by lia. pose proof (Z.pow_pos_nonneg 2 k ltac:(lia) ltac:(lia)).
  rewrite (Z.mul_comm (2 ^ k)), Z.div_mul in H by lia.
  destruct (Z.eqb_spec (2 * q + 1) (1 * 2 ^ (32 - k) - 1)) as [E2|]; [|discriminate].
  assert (p = 32 - k) by congruence. subst p. unfold mask_value. replace (32 - (32 - k)) with k by lia.
  rewrite E, E2. replace (2 ^ 32) with (2 ^ k * 2 ^ (32 - k)) by (rewrite <- Z.pow_add_r by lia; f_equal; lia). lia. Qed.

Lemma lxor_ones m : 0 <= m < 2 ^ 32 -> Z.lxor m 0xffffffff = 2 ^ 32 - 1 - m.
Proof. intros H. change 0xffffffff with (Z.ones 32). 
  assert (E : Z.lxor m (Z.ones 32) = Z.ones 32 - m).
  { rewrite Z.sub_nocarry_ldiff.
    - apply Z.bits_inj'. intros n Hn. rewrite Z.lxor_spec, Z.ldiff_spec.
      destruct (Z_lt_dec n 32); [rewrite Z.ones_spec_low by lia; destruct (Z.testbit m n); reflexivity|].
      rewrite Z.ones_spec_high by lia. assert (Z.testbit m n = false) as ->; [|reflexivity].
      destruct (Z.eq_dec m 0) as [->|]; [apply Z.bits_0|]. apply Z.bits_above_log2; [lia|]. assert (Z.log2 m < 32) by (apply Z.log2_lt_pow2; lia). lia.
    - apply Z.bits_inj'. intros n Hn. rewrite Z.ldiff_spec, Z.bits_0.
      destruct (Z_lt_dec n 32); [rewrite Z.ones_spec_low by lia; apply Bool.andb_false_r|].
      rewrite Z.ones_spec_high by lia. assert (Z.testbit m n = false) as ->; [|reflexivity].
      destruct (Z.eq_dec m 0) as [->|]; [apply Z.bits_0|]. apply Z.bits_above_log2; [lia|]. assert (Z.log2 m < 32) by (apply Z.log2_lt_pow2; lia). lia. }
  rewrite E. reflexivity. Qed.

Theorem prefix_exact m p : 0 <= m < 2 ^ 32 -> prefix_from_mask m = Some p ->
  0 <= p <= 32 /\ (m = mask_value p \/ m = 2 ^ 32 - 1 - mask_value p).
Proof. intros Hm H. pose proof (prefix_range _ _ H) as Hp. split; auto. unfold prefix_from_mask in H.
  destruct (prefix_from_int m) as [q|] eqn:E.
  - assert (q = p) by congruence. subst. left. apply prefix_from_int_inv; auto.
  - right. rewrite lxor_ones in H by auto. apply prefix_from_int_inv in H; lia. Qed.
Theorem mask_refused m : 0 <= m < 2 ^ 32 -> (forall p, 0 <= p <= 32 -> m <> mask_value p /\ m <> 2 ^ 32 - 1 - mask_value p) ->
  prefix_from_mask m = None.
Proof. intros Hm H. destruct (prefix_from_mask m) as [p|] eqn:E; auto. destruct (prefix_exact _ _ Hm E) as (Hp & Hc). specialize (H p Hp). tauto. Qed.

(** Masking keeps the leading bits. *)
Lemma land_mask a p : 0 <= p <= 32 -> 0 <= a < 2 ^ 32 -> Z.land a (netmask_of p) = a - a mod 2 ^ (32 - p).
Proof. intros Hp Ha. unfold netmask_of.
  assert (E : Z.land a (Z.lxor 0xffffffff (Z.shiftr 0xffffffff p)) = Z.ldiff a (Z.ones (32 - p))).
  { apply Z.bits_inj'. intros n Hn. rewrite Z.land_spec, Z.lxor_spec, Z.ldiff_spec, Z.shiftr_spec by lia.
    change 0xffffffff with (Z.ones 32).
    destruct (Z.testbit a n) eqn:Ea; [|reflexivity]. cbn [andb].
    assert (Hn32 : n < 32). { destruct (Z_lt_dec n 32); auto. exfalso.
      destruct (Z.eq_dec a 0) as [->|]; [rewrite Z.bits_0 in Ea; discriminate|].
      rewrite Z.bits_above_log2 in Ea; [discriminate|lia|]. assert (Z.log2 a < 32) by (apply Z.log2_lt_pow2; lia). lia. }
    rewrite (Z.ones_spec_low 32) by lia.
    destruct (Z_lt_dec n (32 - p)).
    - rewrite !Z.ones_spec_low by lia. reflexivity.
    - rewrite !Z.ones_spec_high by lia. reflexivity. }
  rewrite E, Z.ldiff_ones_r by lia. rewrite Z.shiftr_div_pow2, Z.shiftl_mul_pow2 by lia.
  pose proof (Z.div_mod a (2 ^ (32 - p)) ltac:(apply Z.pow_nonzero; lia)). lia. Qed.

(** ** Entries *)
Definition rip_net_ok (p a : Z) : Prop := 0 <= p <= 32 /\ 0 <= a < 2 ^ 32 /\ a mod 2 ^ (32 - p) = 0.
Definition wf_re (e : rip_entry) : Prop :=
  0 <= re_family e < 65536 /\ 0 <= re_tag e < 65536 /\ rip_net_ok (re_plen e) (re_net e) /\
  0 <= re_nexthop e < 2 ^ 32 /\ 0 <= re_metric e < 2 ^ 32.
Definition re_layout (e : rip_entry) : bytes :=
  be 2 (re_family e) ++ be 2 (re_tag e) ++ be 4 (re_net e) ++ be 4 (mask_value (re_plen e)) ++ be 4 (re_nexthop e) ++ be 4 (re_metric e).

Lemma pow32_le p : 0 <= p <= 32 -> 1 <= 2 ^ (32 - p) <= 2 ^ 32.
Proof. intros H. split; [apply (Z.pow_le_mono_r 2 0 (32 - p)); lia|apply Z.pow_le_mono_r; lia]. Qed.
Lemma mask_value_range p : 0 <= p <= 32 -> 0 <= mask_value p < 2 ^ 32.
Proof. intros H. unfold mask_value. pose proof (pow32_le p H). lia. Qed.

Lemma rip_entry_construct addr mask nexthop family metric tag p : 0 <= addr < 2 ^ 32 -> 0 <= p <= 32 -> mask = mask_value p ->
  rip_entry_new addr mask nexthop family metric tag = Ok (mkRipE family tag p (addr - addr mod 2 ^ (32 - p)) nexthop metric).
Proof. intros Ha Hp ->. unfold rip_entry_new. rewrite (proj2 (masks_ok p Hp)). rewrite land_mask by auto. reflexivity. Qed.

Lemma rip_entry_encode e : wf_re e -> rip_entry_to_bytes e = Ok (re_layout e).
Proof. intros (H1 & H2 & (H3 & H4 & H5) & H6 & H7). unfold rip_entry_to_bytes, rip_efmt. rewrite (proj1 (masks_ok _ H3)).
  pose proof (mask_value_range _ H3). change (2 ^ 32) with 4294967296 in *.
  rewrite !pack_cons_int by (pow256; lia). cbn [pack bindr]. rewrite app_nil_r. reflexivity. Qed.
Lemma re_layout_length e : length (re_layout e) = 20%nat.
Proof. unfold re_layout. rewrite !app_length, !be_length. reflexivity. Qed.

Lemma rip_entry_decode e : wf_re e -> rip_entry_from_bytes (re_layout e) = Ok e.
Proof. intros H. pose proof (rip_entry_encode e H) as E. unfold rip_entry_to_bytes in E. apply unpack_pack in E. cbn [norm rip_efmt] in E.
  destruct H as (H1 & H2 & (H3 & H4 & H5) & H6 & H7).
  unfold rip_entry_from_bytes. rewrite re_layout_length. cbn [Nat.eqb negb]. rewrite E. cbn [bindr].
  rewrite (rip_entry_construct _ _ _ _ _ _ (re_plen e)) by (auto; apply masks_ok; auto). rewrite H5, Z.sub_0_r. destruct e; reflexivity. Qed.

Lemma mod_sub_mod a n : 0 < n -> (a - a mod n) mod n = 0.
Proof. intros H. replace (a - a mod n) with (a / n * n) by (pose proof (Z.div_mod a n ltac:(lia)); lia). apply Z.mod_mul. lia. Qed.
Lemma rip_entry_parse_wf raw e : wfb raw -> rip_entry_from_bytes raw = Ok e -> wf_re e.
Proof. intros Hw H. unfold rip_entry_from_bytes in H. destruct (negb _); [discriminate|].
  destruct (unpack rip_efmt raw) as [vs|] eqn:Hu; [|discriminate].
  pose proof (unpack_shaped _ _ _ Hw Hu) as Hs. unfold rip_efmt in Hs. shape Hs. cbn [bindr] in H. pow256.
  unfold rip_entry_new in H. destruct (prefix_from_mask _) as [p|] eqn:Ep; [|discriminate]. apply prefix_range in Ep.
  apply ok_inj in H. subst e. unfold wf_re, rip_net_ok. cbn [re_family re_tag re_plen re_net re_nexthop re_metric].
  change (2 ^ 32) with 4294967296. rewrite land_mask by (auto; change (2 ^ 32) with 4294967296; lia).
  pose proof (pow32_le p Ep) as Hpow.
  match goal with |- context [?a - ?a mod ?n] => pose proof (Z.mod_pos_bound a n ltac:(lia)); pose proof (Z.mod_le a n ltac:(lia) ltac:(lia)); pose proof (mod_sub_mod a n ltac:(lia)) end.
  repeat split; auto; lia. Qed.

(** ** Messages *)
Fixpoint routes_layout (es : list rip_entry) : bytes := match es with [] => [] | e :: r => re_layout e ++ routes_layout r end.
Definition rip_layout (h : rip) : bytes := [rip_cmd h; 2; 0; 0] ++ routes_layout (rip_routes h).
Definition wf_rip (h : rip) : Prop := (rip_cmd h = 1 \/ rip_cmd h = 2) /\ Forall wf_re (rip_routes h).

Lemma routes_length es : length (routes_layout es) = (20 * length es)%nat.
Proof. induction es as [|e es IH]; [reflexivity|]. cbn [routes_layout]. rewrite app_length, re_layout_length, IH. cbn [length]. lia. Qed.
Lemma routes_encode es : Forall wf_re es -> rip_routes_to_bytes es = Ok (routes_layout es).
Proof. induction 1 as [|e es H _ IH]; [reflexivity|]. cbn [rip_routes_to_bytes routes_layout]. rewrite rip_entry_encode, IH by auto. reflexivity. Qed.
Lemma rip_encode h : wf_rip h -> rip_to_bytes h = Ok (rip_layout h).
Proof. intros (H1 & H2). unfold rip_to_bytes. rewrite routes_encode by auto.
  rewrite !pack_cons_int by (pow256; lia). rewrite pack_cons_pad. cbn [pack bindr]. rewrite (be1 (rip_cmd h)) by lia. reflexivity. Qed.

Lemma rip_entries_ok es : Forall wf_re es -> forall i pre tail, length pre = (i * 20)%nat ->
  rip_entries (length es) i (pre ++ routes_layout es ++ tail) = Ok es.
Proof. induction 1 as [|e es H _ IH]; intros i pre tail Hi; [reflexivity|].
  cbn [length rip_entries routes_layout]. rewrite (skipn_app_exact pre) by auto.
  rewrite <- app_assoc. rewrite firstn_app_exact by (rewrite re_layout_length; reflexivity).
  rewrite rip_entry_decode by auto. cbn [bindr]. rewrite app_assoc.
  rewrite IH by (rewrite app_length, re_layout_length; lia). reflexivity. Qed.

Theorem rip_decode h extra : wf_rip h -> (length extra < 20)%nat -> rip_parse (rip_layout h ++ extra) = Ok h.
Proof. intros (H1 & H2) Hx. unfold rip_parse, rip_layout. cbn [app]. set (b := rip_cmd h :: 2 :: 0 :: 0 :: routes_layout (rip_routes h) ++ extra).
  assert (E : rip_from_bytes rip_new b = Ok h); [|exact E].
  assert (P : pack [fB; fB; FX 2] [VI (rip_cmd h); VI 2] = Ok [rip_cmd h; 2; 0; 0]).
  { rewrite !pack_cons_int by (pow256; lia). rewrite pack_cons_pad. cbn [pack bindr]. rewrite (be1 (rip_cmd h)) by lia. reflexivity. }
  destruct (take_pack [fB; fB; FX 2] _ _ (routes_layout (rip_routes h) ++ extra) 4 eq_refl P) as (E1 & E2 & E3).
  change ([rip_cmd h; 2; 0; 0] ++ routes_layout (rip_routes h) ++ extra) with b in *.
  unfold rip_from_bytes. rewrite E1, E2, E3. cbn [norm bindr]. rewrite enum_in by (cbn; lia). cbn [bindr Z.eqb Pos.eqb negb].
  assert (L : (length (routes_layout (rip_routes h) ++ extra) / 20 = length (rip_routes h))%nat).
  { rewrite app_length, routes_length. rewrite Nat.mul_comm, Nat.div_add_l by lia. rewrite (Nat.div_small (length extra)) by lia. lia. }
  rewrite L. pose proof (rip_entries_ok _ H2 0 [] extra eq_refl) as EE. cbn [app] in EE. rewrite EE. cbn [bindr rip_new rip_routes app]. destruct h; reflexivity. Qed.

Lemma rip_entries_wf n : forall i b es, wfb b -> rip_entries n i b = Ok es -> Forall wf_re es /\ length es = n.
Proof. induction n as [|n IH]; intros i b es Hw H; cbn [rip_entries] in H.
  - apply ok_inj in H. subst es. split; [constructor|reflexivity].
  - apply bindr_ok in H as (e & He & H). apply bindr_ok in H as (es' & Hes & H). apply ok_inj in H. subst es.
    destruct (IH _ _ _ Hw Hes) as (I1 & I2). split; [constructor; auto|cbn; congruence].
    eapply rip_entry_parse_wf; [|exact He]. auto using wfb_firstn, wfb_skipn. Qed.

Lemma rip_parse_wf raw h : wfb raw -> rip_parse raw = Ok h -> wf_rip h /\ (raw = [] \/ length (rip_routes h) = ((length raw - 4) / 20)%nat).
Proof. intros Hw H. unfold rip_parse in H. destruct raw as [|x raw]; [apply ok_inj in H; subst h; split; [split; cbn; auto|auto]|].
  unfold rip_from_bytes in H. destruct (Nat.ltb _ 4); [discriminate|]. set (b := x :: raw) in *.
  destruct (unpack _ _) as [vs|] eqn:Hu; [|discriminate]. cbn [bindr] in H.
  pose proof (unpack_shaped _ _ _ (wfb_firstn _ _ Hw) Hu) as Hs. shape Hs.
  apply bindr_ok in H as (c & Hc & H). apply enum_of_ok in Hc as [-> Hc].
  destruct (negb _); [discriminate|]. apply bindr_ok in H as (es & Hes & H). apply ok_inj in H. subst h.
  apply rip_entries_wf in Hes; [|auto using wfb_skipn]. destruct Hes as (W & L).
  split; [split; cbn [rip_cmd rip_routes rip_new app]; auto; cbn in Hc; lia|]. right. cbn [rip_routes rip_new app]. rewrite L, skipn_length. reflexivity. Qed.

(** ** Indexing *)
Lemma set_nth_length {A} n (x : A) l : length (set_nth n x l) = length l.
Proof. revert n. induction l as [|y l IH]; intros [|n]; cbn; auto. Qed.
Lemma set_nth_same {A} n (x : A) l : (n < length l)%nat -> nth_error (set_nth n x l) n = Some x.
Proof. revert n. induction l as [|y l IH]; intros [|n] H; cbn in *; try lia; auto. apply IH. lia. Qed.
Lemma set_nth_other {A} n m (x : A) l : n <> m -> nth_error (set_nth n x l) m = nth_error l m.
Proof. revert n m. induction l as [|y l IH]; intros [|n] [|m] H; cbn; auto; try congruence. Qed.

Lemma rip_index_set h i e h' j : rip_set h i e = Ok h' -> rip_index h' j = rip_index h j.
Proof. unfold rip_set. intros H. apply bindr_ok in H as (n & Hn & H). apply ok_inj in H. subst h'.
  unfold rip_index. cbn [rip_routes]. unfold zlen. rewrite set_nth_length. reflexivity. Qed.
Lemma rip_index_lt h i n : rip_index h i = Ok n -> (n < length (rip_routes h))%nat.
Proof. unfold rip_index, zlen. destruct (i <? 0); destruct (_ && _) eqn:E; try discriminate; intros H; apply ok_inj in H; lia. Qed.

Lemma rip_set_get h i e h' j : rip_set h i e = Ok h' ->
  rip_get h' j = (if match rip_index h i, rip_index h j with Ok a, Ok b => Nat.eqb a b | _, _ => false end then Ok e else rip_get h j) /\
  rip_cmd h' = rip_cmd h /\ length (rip_routes h') = length (rip_routes h).
Proof. intros H. pose proof (rip_index_set _ _ _ _ j H) as Hj. unfold rip_set in H. apply bindr_ok in H as (n & Hn & H). apply ok_inj in H. subst h'.
  cbn [rip_cmd rip_routes]. split; [|split; auto using set_nth_length].
  unfold rip_get. rewrite Hj, Hn. destruct (rip_index h j) as [m|]; cbn [bindr rip_routes]; auto.
  destruct (Nat.eqb_spec n m) as [->|Hne].
  - rewrite set_nth_same; auto. eapply rip_index_lt; eauto.
  - rewrite set_nth_other; auto. Qed.

Lemma rip_get_range h i : (exists e, rip_get h i = Ok e) <-> - zlen (rip_routes h) <= i < zlen (rip_routes h).
Proof. unfold rip_get. split.
  - intros (e & H). apply bindr_ok in H as (n & Hn & _). revert Hn. unfold rip_index, zlen. destruct (i <? 0) eqn:E; destruct (_ && _) eqn:E2; try discriminate; lia.
  - intros H. destruct (rip_index h i) as [n|] eqn:E.
    + cbn [bindr]. apply rip_index_lt in E. destruct (nth_error (rip_routes h) n) eqn:En; eauto. apply nth_error_None in En. lia.
    + exfalso. revert E. unfold rip_index, zlen in *. destruct (i <? 0) eqn:E1; destruct (_ && _) eqn:E2; try discriminate; lia. Qed.

Lemma rip_get_spec h i : (0 <= i < zlen (rip_routes h) -> forall d, rip_get h i = Ok (nth (Z.to_nat i) (rip_routes h) d)) /\
  (- zlen (rip_routes h) <= i < 0 -> rip_get h i = rip_get h (zlen (rip_routes h) + i)).
Proof. unfold rip_get, rip_index, zlen. split.
  - intros H d. replace (i <? 0) with false by lia. replace (_ && _) with true by lia. cbn [bindr].
    destruct (nth_error (rip_routes h) (Z.to_nat i)) eqn:E; [f_equal; symmetry; apply nth_error_nth; auto|]. apply nth_error_None in E. lia.
  - intros H. replace (i <? 0) with true by lia. replace (_ + i <? 0) with false by lia. reflexivity. Qed.

Lemma rip_append_spec : forall h e, rip_cmd (rip_append h e) = rip_cmd h /\
  zlen (rip_routes (rip_append h e)) = zlen (rip_routes h) + 1 /\
  rip_get (rip_append h e) (-1) = Ok e /\ rip_get (rip_append h e) (zlen (rip_routes h)) = Ok e /\
  (forall i, 0 <= i < zlen (rip_routes h) -> rip_get (rip_append h e) i = rip_get h i).
Proof.
  intros [c rs] e. cbn [rip_append rip_cmd rip_routes].
  assert (L : zlen (rs ++ [e]) = zlen rs + 1) by (unfold zlen; rewrite app_length; cbn [length]; lia).
  assert (N : 0 <= zlen rs) by (unfold zlen; lia).
  assert (G : forall i, i = -1 \/ i = zlen rs -> rip_get (mkRip c (rs ++ [e])) i = Ok e).
  { intros i Hi. unfold rip_get, rip_index. cbn [rip_routes]. rewrite L.
    replace (if i <? 0 then zlen rs + 1 + i else i) with (zlen rs) by (destruct (Z.ltb_spec i 0); lia).
    replace ((0 <=? zlen rs) && (zlen rs <? zlen rs + 1)) with true by (symmetry; apply andb_true_iff; lia).
    cbn [bindr]. rewrite nth_error_app2; unfold zlen; [|lia].
    replace (Z.to_nat (Z.of_nat (length rs)) - length rs)%nat with 0%nat by lia. reflexivity. }
  split; [reflexivity|]. split; [exact L|]. split; [apply G; auto|]. split; [apply G; auto|].
  intros i Hi. unfold rip_get, rip_index, rip_append. cbn [rip_routes]. rewrite L.
  replace (i <? 0) with false by (symmetry; apply Z.ltb_ge; lia). cbv zeta.
  replace ((0 <=? i) && (i <? zlen rs + 1)) with true by (symmetry; apply andb_true_iff; lia).
  replace ((0 <=? i) && (i <? zlen rs)) with true by (symmetry; apply andb_true_iff; lia).
  cbn [bindr]. rewrite nth_error_app1 by (unfold zlen in Hi; lia). reflexivity.
Qed.
