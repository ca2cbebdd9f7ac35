From Verif Require Import BaseLemmas ChecksumModel ChecksumSpec.

(** [oc_repr r S]: r is the 16-bit one's-complement representative of the sum S. *)
Definition oc_repr (r S : Z) : Prop :=
  0 <= r <= 65535 /\ (exists k, r = S + k * 65535) /\ (r = 0 <-> S = 0).

Lemma oc_repr_unique r r' S S' k :
  oc_repr r S -> oc_repr r' S' -> S' = S + k * 65535 -> (S = 0 <-> S' = 0) -> r = r'.
Proof. intros (H1 & [k1 H2] & H3) (H4 & [k2 H5] & H6) Hk Hz.
  assert (r' - r = (k2 - k1 + k) * 65535) by lia.
  assert (r = 0 <-> r' = 0) by tauto.
  destruct (Z.eq_dec r 0); [lia|]. nia. Qed.

Lemma oc_add_repr x y S : oc_repr x S -> 0 <= S -> 0 <= y <= 65535 -> oc_repr (oc_add x y) (S + y).
Proof. intros (H1 & [k H2] & H3) HS Hy. unfold oc_repr, oc_add.
  destruct (Z.ltb_spec (x + y) 65536).
  - split; [lia|]. split; [exists k; lia|]. lia.
  - split; [lia|]. split; [exists (k - 1); lia|]. lia. Qed.

Definition wf_words (ws : list Z) := Forall (fun w => 0 <= w <= 65535) ws.
Definition zsum (ws : list Z) : Z := fold_right Z.add 0 ws.

Lemma oc_fold_repr ws : wf_words ws -> forall x S, oc_repr x S -> 0 <= S ->
  oc_repr (fold_left oc_add ws x) (S + zsum ws).
Proof. induction ws as [|w ws IH]; intros Hw x S Hx HS; cbn [fold_left zsum fold_right].
  - rewrite Z.add_0_r; auto.
  - inversion Hw; subst. rewrite Z.add_assoc. apply IH; auto; [|lia].
    apply oc_add_repr; auto. Qed.

Lemma oc_sum_repr ws : wf_words ws -> oc_repr (oc_sum ws) (zsum ws).
Proof. intros H. unfold oc_sum. replace (zsum ws) with (0 + zsum ws) by lia.
  apply oc_fold_repr; auto; [|lia]. unfold oc_repr. split; [lia|].
  split; [exists 0; lia|]. lia. Qed.

Lemma zsum_nonneg ws : wf_words ws -> 0 <= zsum ws.
Proof. induction 1; cbn; [lia|]. unfold zsum in *. lia. Qed.
Lemma zsum_bound ws : wf_words ws -> zsum ws <= 65535 * zlen ws.
Proof. unfold zlen. induction 1; cbn [zsum fold_right length]; [lia|].
  unfold zsum in *. lia. Qed.
Lemma zsum_app a b : zsum (a ++ b) = zsum a + zsum b.
Proof. induction a; cbn; unfold zsum in *; lia. Qed.

Lemma list_pair_ind {A} (P : list A -> Prop) :
  P [] -> (forall a, P [a]) -> (forall a b r, P r -> P (a :: b :: r)) -> forall l, P l.
Proof. intros H0 H1 H2. fix IH 1. intros [|a [|b r]]; [exact H0|exact (H1 a)|exact (H2 a b r (IH r))]. Qed.

Lemma be_words_wf data : wfb data -> wf_words (be_words data).
Proof. induction data as [|a|a b r IH] using list_pair_ind; intros H; cbn [be_words].
  - constructor.
  - apply wfb_cons in H as [? _]. constructor; [lia|constructor].
  - apply wfb_cons in H as [? H]. apply wfb_cons in H as [? H]. constructor; [lia|]. apply IH; auto. Qed.

Lemma be_words_len data : zlen (be_words data) = (zlen data + 1) / 2.
Proof. unfold zlen. induction data as [|a|a b r IH] using list_pair_ind; cbn [be_words length]; [reflexivity|reflexivity|lia]. Qed.

(** All native words including the padded odd byte. *)
Fixpoint all_words (little : bool) (data : bytes) : list Z :=
  match data with
  | a :: b :: r => word little a b :: all_words little r
  | [a] => [word little a 0]
  | [] => []
  end.

Lemma sum_words_none arr : forall i start, sum_words None i arr start = start + zsum arr.
Proof. induction arr as [|w arr IH]; intros i start; cbn [sum_words zsum fold_right]; [lia|].
  rewrite IH. unfold zsum; lia. Qed.

Lemma odd_SS n : Nat.odd (S (S n)) = Nat.odd n.
Proof. reflexivity. Qed.

Lemma hwords_all little data :
  (zsum (hwords little data) + if Nat.odd (length data) then word little (last data 0) 0 else 0)
  = zsum (all_words little data).
Proof. induction data as [|a|a b r IH] using list_pair_ind.
  - reflexivity.
  - cbn. lia.
  - cbn [hwords all_words length]. rewrite odd_SS.
    assert (last (a :: b :: r) 0 = if Nat.odd (length r) then last r 0 else last (a :: b :: r) 0) as ->.
    { destruct r as [|c r]; [reflexivity|]. destruct (Nat.odd _); reflexivity. }
    destruct (Nat.odd (length r)); cbn [zsum fold_right]; unfold zsum in *; lia. Qed.

Lemma all_words_wf little data : wfb data -> wf_words (all_words little data).
Proof. induction data as [|a|a b r IH] using list_pair_ind; intros H; cbn [all_words].
  - constructor.
  - apply wfb_cons in H as [? _]. constructor; [unfold word; destruct little; lia|constructor].
  - apply wfb_cons in H as [? H]. apply wfb_cons in H as [? H].
    constructor; [unfold word; destruct little; lia|]. apply IH; auto. Qed.
Lemma all_words_len little data : zlen (all_words little data) = (zlen data + 1) / 2.
Proof. unfold zlen. induction data as [|a|a b r IH] using list_pair_ind; cbn [all_words length]; [reflexivity|reflexivity|lia]. Qed.

(** The folding at the end of [checksum]. *)
Definition fold16 (s : Z) : Z :=
  let s := Z.shiftr s 16 + Z.land s 0xffff in
  let s := s + Z.shiftr s 16 in Z.land (Z.lnot s) 0xffff.

Lemma fold16_arith s :
  fold16 s = let t := s / 65536 + s mod 65536 in (- (t + t / 65536) - 1) mod 65536.
Proof. unfold fold16. rewrite !Z.shiftr_div_pow2 by lia.
  change 0xffff with (2 ^ 16 - 1). rewrite !land_ones_mod by lia.
  unfold Z.lnot. change (2 ^ 16) with 65536. cbn zeta. f_equal. Qed.

Lemma fold16_repr s : 0 <= s < 2 ^ 32 ->
  exists r, oc_repr r s /\ fold16 s = 65535 - r.
Proof. intros Hs. rewrite fold16_arith. cbn zeta. set (t := s / 65536 + s mod 65536).
  assert (Ht : 0 <= t <= 131070) by (unfold t; lia).
  assert (Hm : exists k, t = s + k * 65535) by (exists (- (s / 65536)); unfold t; lia).
  assert (Ht0 : t = 0 <-> s = 0) by (unfold t; lia).
  clearbody t. exists ((t + t / 65536) mod 65536). split.
  - unfold oc_repr. split; [lia|]. destruct Hm as [k Hk]. split; [|lia].
    exists (k - t / 65536). lia.
  - lia. Qed.

Lemma ntohs_arith v : 0 <= v <= 65535 -> ntohs true v = (v mod 256) * 256 + v / 256.
Proof. intros. unfold ntohs. change 255 with (2 ^ 8 - 1). rewrite land_ones_mod by lia.
  rewrite Z.shiftr_div_pow2 by lia. rewrite lor_add_disjoint; change (2 ^ 8) with 256; lia. Qed.

Lemma all_words_swap data : exists k, zsum (be_words data) = 256 * zsum (all_words true data) + k * 65535.
Proof. induction data as [|a|a b r [k IH]] using list_pair_ind; cbn [be_words all_words].
  - exists 0; reflexivity.
  - exists 0. cbn [zsum fold_right word]. lia.
  - exists (k - b). cbn [zsum fold_right word] in *. unfold zsum in *. lia. Qed.
Lemma all_words_big data : zsum (be_words data) = zsum (all_words false data).
Proof. induction data as [|a|a b r IH] using list_pair_ind; cbn [be_words all_words]; [reflexivity|cbn [zsum fold_right word];lia|].
  cbn [zsum fold_right word] in *. unfold zsum in *. lia. Qed.

Lemma zsum_zero ws : wf_words ws -> (zsum ws = 0 <-> Forall (fun w => w = 0) ws).
Proof. induction 1 as [|w ws Hw H IH]; cbn [zsum fold_right]; [split; [constructor|reflexivity]|].
  pose proof (zsum_nonneg ws H). unfold zsum in *. split.
  - intros. constructor; [lia|]. apply IH; lia.
  - intros H1. inversion H1; subst. apply IH in H5. lia. Qed.

Lemma words_zero_iff data : wfb data -> (zsum (all_words true data) = 0 <-> zsum (be_words data) = 0).
Proof. intros H. rewrite !zsum_zero by (auto using all_words_wf, be_words_wf).
  induction data as [|a|a b r IH] using list_pair_ind; cbn [be_words all_words].
  - tauto.
  - apply wfb_cons in H as [? _]. rewrite !Forall_cons_iff; unfold word; intuition lia.
  - apply wfb_cons in H as [? H]. apply wfb_cons in H as [? H]. specialize (IH H).
    rewrite !Forall_cons_iff; unfold word; intuition lia. Qed.

(** Value of [checksum] with a start value, as a function of the native sum. *)
Lemma checksum_fold little data start :
  checksum little data start None = ntohs little (fold16 (start + zsum (all_words little data))).
Proof. unfold checksum. rewrite sum_words_none. cbn zeta.
  rewrite <- hwords_all. unfold fold16. cbn zeta.
  destruct (Nat.odd (length data)).
  - rewrite Z.add_assoc. reflexivity.
  - rewrite Z.add_0_r. reflexivity. Qed.



Lemma all_words_small little data : wfb data -> zlen data <= 131072 ->
  0 <= zsum (all_words little data) < 2 ^ 32.
Proof. intros Hw Hl. pose proof (all_words_wf little data Hw) as H.
  pose proof (zsum_nonneg _ H). pose proof (zsum_bound _ H) as Hb.
  rewrite all_words_len in Hb. lia. Qed.

Theorem checksum_rfc1071 little data :
  wfb data -> zlen data <= 131072 -> checksum little data 0 None = rfc1071 data.
Proof.
  intros Hw Hl. rewrite checksum_fold, Z.add_0_l.
  destruct (fold16_repr _ (all_words_small little data Hw Hl)) as (r & Hr & ->).
  unfold rfc1071. pose proof (oc_sum_repr _ (be_words_wf data Hw)) as Ho.
  destruct little.
  - rewrite ntohs_arith by (destruct Hr; lia).
    pose proof Hr as (Hr1 & [k Hk] & Hr3).
    destruct (all_words_swap data) as [k' Hk'].
    assert (Hsw : oc_repr ((r mod 256) * 256 + r / 256) (256 * zsum (all_words true data))).
    { unfold oc_repr. split; [lia|]. split; [|lia].
      exists (256 * k - r / 256). lia. }
    rewrite <- (oc_repr_unique _ _ _ _ k' Hsw Ho Hk'); [lia|].
    rewrite <- (words_zero_iff data Hw). lia.
  - cbn [ntohs]. rewrite all_words_big in Ho.
    rewrite (oc_repr_unique _ _ _ _ 0 Hr Ho); lia.
Qed.

(** Native host order never matters. *)
Corollary checksum_order_independent data :
  wfb data -> zlen data <= 131072 -> checksum true data 0 None = checksum false data 0 None.
Proof. intros. rewrite !checksum_rfc1071 by auto. reflexivity. Qed.

(** Splitting at an even offset. *)
Lemma be_words_app a b : Nat.even (length a) = true -> be_words (a ++ b) = be_words a ++ be_words b.
Proof. induction a as [|x|x y r IH] using list_pair_ind; intros H; cbn [app be_words]; auto.
  - discriminate.
  - f_equal. apply IH. exact H. Qed.

Lemma verifies_zsum data : wfb data ->
  (verifies data <-> zsum (be_words data) <> 0 /\ zsum (be_words data) mod 65535 = 0).
Proof. intros H. unfold verifies.
  pose proof (oc_sum_repr _ (be_words_wf data H)) as (H1 & [k Hk] & H3).
  set (S := zsum (be_words data)) in *. set (r := oc_sum (be_words data)) in *.
  split.
  - intros E. split; [lia|]. replace S with ((1 - k) * 65535) by lia. apply Z.mod_mul; lia.
  - intros [Hn Hm]. apply Z.mod_divide in Hm as [q Hq]; [|lia]. nia. Qed.

Lemma rfc1071_range data : wfb data -> 0 <= rfc1071 data <= 65535.
Proof. intros H. unfold rfc1071. pose proof (oc_sum_repr _ (be_words_wf data H)) as (H1 & _). lia. Qed.

Lemma be2_word v : 0 <= v <= 65535 -> be_words (be 2 v) = [v].
Proof. intros. cbn [be be_words]. change (256 ^ Z.of_nat 1) with 256.
  change (256 ^ Z.of_nat 0) with 1. f_equal. lia. Qed.

Theorem stored_checksum_verifies a b :
  wfb a -> wfb b -> Nat.even (length a) = true ->
  verifies (a ++ be 2 (rfc1071 (a ++ [0; 0] ++ b)) ++ b).
Proof. intros Ha Hb He.
  assert (Hw : wfb (a ++ [0;0] ++ b)).
  { apply wfb_app; split; auto. apply wfb_app; split; auto. repeat constructor; lia. }
  pose proof (rfc1071_range _ Hw) as Hr.
  apply verifies_zsum.
  { apply wfb_app; split; auto. apply wfb_app; split; auto with wfb. }
  rewrite be_words_app, be_words_app by (auto || reflexivity).
  rewrite be2_word by auto. rewrite !zsum_app. cbn [zsum fold_right].
  unfold rfc1071 in *. rewrite be_words_app, be_words_app in * by (auto || reflexivity).
  pose proof (oc_sum_repr (be_words a ++ be_words [0;0] ++ be_words b)) as Ho.
  destruct Ho as (H1 & [k Hk] & H3).
  { apply Forall_app; split; [apply be_words_wf; auto|]. apply Forall_app; split; [|apply be_words_wf; auto].
    cbn. repeat constructor; lia. }
  rewrite !zsum_app in *. change (zsum (be_words [0;0])) with 0 in *.
  set (r := oc_sum _) in *.
  pose proof (zsum_nonneg _ (be_words_wf a Ha)). pose proof (zsum_nonneg _ (be_words_wf b Hb)).
  split.
  - destruct (Z.eq_dec r 0); lia.
  - replace (zsum (be_words a) + (65535 - r + 0 + zsum (be_words b))) with ((1 - k) * 65535) by lia.
    apply Z.mod_mul. lia.
Qed.

Theorem corrupted_word_detected a b x y x' y' :
  wfb (a ++ [x; y] ++ b) -> wfb [x'; y'] -> Nat.even (length a) = true ->
  verifies (a ++ [x; y] ++ b) ->
  (256 * x + y) mod 65535 <> (256 * x' + y') mod 65535 ->
  ~ verifies (a ++ [x'; y'] ++ b).
Proof. intros Hw Hw' He Hv Hd Hv'.
  assert (Hw2 : wfb (a ++ [x'; y'] ++ b)).
  { apply wfb_app in Hw as [? Hw]. apply wfb_app in Hw as [? ?].
    apply wfb_app; split; auto. apply wfb_app; split; auto. }
  apply verifies_zsum in Hv as [_ Hv]; auto. apply verifies_zsum in Hv' as [_ Hv']; auto.
  rewrite be_words_app, be_words_app in Hv, Hv' by (auto || reflexivity).
  rewrite !zsum_app in Hv, Hv'. cbn [be_words zsum fold_right] in Hv, Hv'.
  apply Hd. apply Z.mod_divide in Hv as [q Hq]; [|lia]. apply Z.mod_divide in Hv' as [q' Hq']; [|lia].
  replace (256 * x + y) with (256 * x' + y' + (q - q') * 65535) by (unfold zsum in *; lia).
  apply Z.mod_add; lia. Qed.

(** A corrupted single byte at the odd end or anywhere else is detected as well. *)
Lemma hwords_len little data : zlen (hwords little data) = zlen data / 2.
Proof. unfold zlen. induction data as [|a|a b r IH] using list_pair_ind; cbn [hwords length]; [reflexivity|reflexivity|lia]. Qed.

(** Zeroing the k-th 16-bit word. *)
Fixpoint zero_word (k : nat) (data : bytes) : bytes :=
  match data, k with
  | a :: b :: r, O => 0 :: 0 :: r
  | a :: b :: r, S k' => a :: b :: zero_word k' r
  | _, _ => data
  end.

Lemma zero_word_length k : forall data, length (zero_word k data) = length data.
Proof. induction k as [|k IH]; intros [|a [|b r]]; cbn; auto. Qed.

Lemma zero_word_last k : forall data, Nat.odd (length data) = true -> last (zero_word k data) 0 = last data 0.
Proof. induction k as [|k IH]; intros [|a [|b r]] H; cbn [zero_word]; auto.
  - destruct r; [discriminate|]. reflexivity.
  - cbn [length] in H. rewrite odd_SS in H. specialize (IH _ H).
    destruct r as [|c r]; [discriminate|].
    change (last (a :: b :: c :: r) 0) with (last (c :: r) 0). rewrite <- IH.
    pose proof (zero_word_length k (c :: r)). destruct (zero_word k (c :: r)); [discriminate|]. reflexivity. Qed.

Lemma sum_words_shift arr : forall k i j start, sum_words (Some (k + j)) (i + j) arr start = sum_words (Some k) i arr start.
Proof. induction arr as [|w arr IH]; intros; cbn [sum_words]; auto.
  replace (i + j + 1) with (i + 1 + j) by lia. rewrite IH.
  replace (i + j =? k + j) with (i =? k) by lia. reflexivity. Qed.

Lemma sum_words_notin arr : forall k i start, k < i -> sum_words (Some k) i arr start = start + zsum arr.
Proof. induction arr as [|w arr IH]; intros; cbn [sum_words zsum fold_right]; [lia|].
  replace (i =? k) with false by lia. rewrite IH by lia. unfold zsum; lia. Qed.

Lemma sum_skip_zero little k : forall data start,
  sum_words (Some (Z.of_nat k)) 0 (hwords little data) start
  = start + zsum (hwords little (zero_word k data)).
Proof. induction k as [|k IH]; intros [|a [|b r]] start; cbn [zero_word hwords sum_words zsum fold_right]; try lia.
  - replace (0 =? Z.of_nat 0) with true by lia. rewrite sum_words_notin by lia.
    unfold word, zsum; destruct little; lia.
  - replace (0 =? Z.of_nat (S k)) with false by lia.
    replace (Z.of_nat (S k)) with (Z.of_nat k + 1) by lia. rewrite (sum_words_shift _ _ 0 1).
    rewrite IH. unfold zsum; lia. Qed.

Theorem skip_word_is_zero_word little data start k :
  checksum little data start (Some (Z.of_nat k)) = checksum little (zero_word k data) start None.
Proof. unfold checksum. rewrite sum_skip_zero, sum_words_none, zero_word_length.
  destruct (Nat.odd (length data)) eqn:E; [|reflexivity].
  rewrite zero_word_last by exact E. reflexivity. Qed.

(** Beyond 128 KiB the two fold steps lose a carry. *)
Definition long_data : bytes := [1; 0] ++ repeat 255 (2 * Z.to_nat 65538).

Lemma repeat_2n {A} (x : A) n : repeat x (2 * S n) = x :: x :: repeat x (2 * n).
Proof. replace (2 * S n)%nat with (S (S (2 * n))) by lia. reflexivity. Qed.
Lemma all_words_repeat n : zsum (all_words true (repeat 255 (2 * n))) = 65535 * Z.of_nat n.
Proof. induction n as [|n IH]; [reflexivity|]. rewrite repeat_2n. cbn [all_words zsum fold_right].
  unfold zsum in *. rewrite IH. cbn [word]. lia. Qed.
Lemma be_words_repeat n : zsum (be_words (repeat 255 (2 * n))) = 65535 * Z.of_nat n.
Proof. induction n as [|n IH]; [reflexivity|]. rewrite repeat_2n. cbn [be_words zsum fold_right].
  unfold zsum in *. rewrite IH. lia. Qed.
Lemma wfb_repeat x n : 0 <= x < 256 -> wfb (repeat x n).
Proof. intros. induction n; cbn; constructor; auto. Qed.

Lemma long_all n : zsum (all_words true ([1; 0] ++ repeat 255 (2 * n))) = 1 + 65535 * Z.of_nat n.
Proof. rewrite <- all_words_repeat. reflexivity. Qed.
Lemma long_be n : zsum (be_words ([1; 0] ++ repeat 255 (2 * n))) = 256 + 65535 * Z.of_nat n.
Proof. rewrite <- be_words_repeat. reflexivity. Qed.
Lemma long_gen n : Z.of_nat n = 65538 ->
  let d := [1; 0] ++ repeat 255 (2 * n) in
  wfb d /\ checksum true d 0 None = 0xffff /\ rfc1071 d = 0xfeff.
Proof.
  intros Hn. cbn zeta.
  assert (Hw : wfb ([1; 0] ++ repeat 255 (2 * n))).
  { apply wfb_app. split; [repeat constructor; lia|apply wfb_repeat; lia]. }
  split; [exact Hw|]. split.
  - rewrite checksum_fold, long_all, Hn. reflexivity.
  - pose proof (oc_sum_repr _ (be_words_wf _ Hw)) as Ho. unfold rfc1071.
    rewrite long_be, Hn in Ho. destruct Ho as (H1 & [k Hk] & H3). lia.
Qed.
Lemma long_data_wrong : wfb long_data /\ checksum true long_data 0 None = 0xffff /\ rfc1071 long_data = 0xfeff.
Proof. apply long_gen. apply Z2Nat.id. lia. Qed.

Lemma zero_word_app k : forall a x y b, length a = (2 * k)%nat ->
  zero_word k (a ++ [x; y] ++ b) = a ++ [0; 0] ++ b.
Proof. induction k as [|k IH]; intros [|c [|d a]] x y b H; cbn in H |- *; try lia; auto.
  f_equal. f_equal. apply IH. lia. Qed.

Theorem skip_word_zeroes little a x y b start k :
  length a = (2 * k)%nat ->
  checksum little (a ++ [x; y] ++ b) start (Some (Z.of_nat k))
  = checksum little (a ++ [0; 0] ++ b) start None.
Proof. intros H. rewrite skip_word_is_zero_word, zero_word_app by exact H. reflexivity. Qed.

Lemma sum_words_out arr : forall k i start, (k < i \/ i + zlen arr <= k) ->
  sum_words (Some k) i arr start = start + zsum arr.
Proof. unfold zlen. induction arr as [|w arr IH]; intros k i start H; cbn [sum_words zsum fold_right length] in *; [lia|].
  replace (i =? k) with false by lia. rewrite IH by lia. unfold zsum; lia. Qed.

Theorem skip_word_outside little data start k :
  (k < 0 \/ zlen data / 2 <= k) ->
  checksum little data start (Some k) = checksum little data start None.
Proof. intros H. unfold checksum. rewrite sum_words_out, sum_words_none; [reflexivity|].
  rewrite hwords_len. lia. Qed.

Theorem stored_checksum_ok little a b :
  wfb a -> wfb b -> Nat.even (length a) = true -> zlen (a ++ [0; 0] ++ b) <= 131072 ->
  let c := checksum little (a ++ [0; 0] ++ b) 0 None in
  0 <= c <= 65535 /\
  verifies (a ++ be 2 c ++ b) /\
  checksum little (a ++ be 2 c ++ b) 0 None = 0.
Proof. intros Ha Hb He Hl c. 
  assert (Hw : wfb (a ++ [0;0] ++ b)).
  { apply wfb_app; split; auto. apply wfb_app; split; auto. repeat constructor; lia. }
  assert (Hc : c = rfc1071 (a ++ [0; 0] ++ b)) by (apply checksum_rfc1071; auto).
  rewrite Hc. split; [apply rfc1071_range; auto|].
  pose proof (stored_checksum_verifies a b Ha Hb He) as Hv. split; [exact Hv|].
  rewrite checksum_rfc1071.
  - unfold rfc1071 at 1. unfold verifies in Hv. rewrite Hv. lia.
  - apply wfb_app; split; auto. apply wfb_app; split; auto with wfb.
  - unfold zlen in *. rewrite !app_length in *. rewrite be_length. exact Hl.
Qed.
