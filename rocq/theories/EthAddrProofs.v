From Verif Require Import BaseLemmas EthAddrModel EthAddrSpec.

(** Finite sweep over the 256 byte values. *)
Definition all_bytes : list Z := map Z.of_nat (seq 0 256).
Lemma all_bytes_In b : 0 <= b < 256 -> In b all_bytes.
Proof. intros. unfold all_bytes. apply in_map_iff. exists (Z.to_nat b).
  rewrite Z2Nat.id by lia. split; auto. apply in_seq. lia. Qed.
Lemma sweep (P : Z -> bool) : forallb P all_bytes = true -> forall b, 0 <= b < 256 -> P b = true.
Proof. intros H b Hb. rewrite forallb_forall in H. auto using all_bytes_In. Qed.

(** Splitting and joining. *)
Lemma split_nosep sep s : ~ In sep s -> split sep s = [s].
Proof. induction s as [|c s IH]; intros H; cbn [split]; auto.
  destruct (Z.eqb_spec c sep) as [->|]; [exfalso; apply H; left; auto|].
  rewrite IH; auto. intros Hi; apply H; right; auto. Qed.
Lemma split_app sep g s : ~ In sep g -> split sep (g ++ sep :: s) = g :: split sep s.
Proof. induction g as [|c g IH]; intros H; cbn [split app].
  - rewrite Z.eqb_refl. reflexivity.
  - destruct (Z.eqb_spec c sep) as [->|]; [exfalso; apply H; left; auto|].
    rewrite IH; auto. intros Hi; apply H; right; auto. Qed.
Lemma split_join sep gs : gs <> [] -> Forall (fun g => ~ In sep g) gs -> split sep (join sep gs) = gs.
Proof. induction gs as [|g gs IH]; intros Hn H; [congruence|].
  inversion H; subst. destruct gs as [|g' gs].
  - cbn [join]. apply split_nosep; auto.
  - cbn [join]. rewrite split_app by auto. f_equal. apply IH; auto. congruence. Qed.
Lemma split_neq sep s : split sep s <> [].
Proof. destruct s as [|c s]; cbn; [congruence|]. destruct (c =? sep); [congruence|].
  destruct (split sep s); congruence. Qed.
Lemma join_split sep s : join sep (split sep s) = s.
Proof. induction s as [|c s IH]; cbn [split]; auto.
  pose proof (split_neq sep s). destruct (Z.eqb_spec c sep) as [->|].
  - cbn [join]. destruct (split sep s) eqn:E; [congruence|]. cbn [app]. f_equal; auto.
  - destruct (split sep s) as [|g gs] eqn:E; [congruence|].
    rewrite <- IH. cbn [join]. destruct gs; reflexivity. Qed.
Lemma split_groups sep s : Forall (fun g => ~ In sep g) (split sep s).
Proof. induction s as [|c s IH]; cbn [split].
  - constructor; auto.
  - destruct (Z.eqb_spec c sep) as [->|Hn].
    + constructor; auto.
    + destruct (split sep s) as [|g gs]; inversion IH; subst; constructor; auto.
      * intros [Hi|[]]; auto.
      * intros [Hi|Hi]; auto. Qed.
Lemma count_app sep a b : count sep (a ++ b) = (count sep a + count sep b)%nat.
Proof. unfold count. rewrite filter_app, app_length. reflexivity. Qed.
Lemma count_nosep sep s : ~ In sep s -> count sep s = 0%nat.
Proof. unfold count. induction s as [|c s IH]; intros H; cbn; auto.
  destruct (Z.eqb_spec sep c) as [->|]; [exfalso; apply H; left; auto|].
  apply IH. intros Hi; apply H; right; auto. Qed.
Lemma count_split sep s : length (split sep s) = S (count sep s).
Proof. induction s as [|c s IH]; cbn [split]; auto.
  unfold count in *. cbn [filter]. rewrite (Z.eqb_sym sep c).
  destruct (c =? sep); cbn [length]; [lia|].
  pose proof (split_neq sep s). destruct (split sep s); [congruence|]. cbn [length] in *. lia. Qed.
Lemma count_join sep gs : gs <> [] -> Forall (fun g => ~ In sep g) gs ->
  S (count sep (join sep gs)) = length gs.
Proof. intros Hn H. rewrite <- count_split, split_join; auto. Qed.
Lemma join_nosep x sep gs : x <> sep -> Forall (fun g => ~ In x g) gs -> ~ In x (join sep gs).
Proof. intros Hx. induction gs as [|g gs IH]; intros H; cbn [join]; auto.
  inversion H; subst. destruct gs; auto. intros Hi. apply in_app_iff in Hi as [Hi|[Hi|Hi]]; auto. apply IH; auto. Qed.

(** Hex pairs. *)
Definition upper (c : Z) : Z := if (97 <=? c) && (c <=? 122) then c - 32 else c.

Lemma hex2_int16 b : 0 <= b < 256 -> int16 (hex2 b) = Ok b /\ int16 (map upper (hex2 b)) = Ok b.
Proof. intros Hb.
  pose proof (sweep (fun b => match int16 (hex2 b), int16 (map upper (hex2 b)) with
     Ok v, Ok w => (v =? b) && (w =? b) | _, _ => false end) ltac:(vm_compute; reflexivity) b Hb) as H.
  cbv beta in H. destruct (int16 (hex2 b)); [|discriminate].
  destruct (int16 (map upper (hex2 b))); [|discriminate]. split; f_equal; lia. Qed.
Lemma hex2_nosep b : 0 <= b < 256 ->
  ~ In 58 (hex2 b) /\ ~ In 45 (hex2 b) /\ ~ In 58 (map upper (hex2 b)) /\ ~ In 45 (map upper (hex2 b)).
Proof. intros Hb.
  pose proof (sweep (fun b => negb (zmem 58 (hex2 b)) && negb (zmem 45 (hex2 b))
     && negb (zmem 58 (map upper (hex2 b))) && negb (zmem 45 (map upper (hex2 b))))
     ltac:(vm_compute; reflexivity) b Hb) as H. cbv beta in H.
  repeat rewrite andb_true_iff in H. repeat rewrite negb_true_iff in H.
  destruct H as (((H1 & H2) & H3) & H4).
  repeat split; intros Hi; apply zmem_In in Hi; congruence. Qed.

Lemma mapr_map {A B C} (f : B -> res C) (g : A -> B) (l : list A) (h : A -> C) :
  (forall a, In a l -> f (g a) = Ok (h a)) -> mapr f (map g l) = Ok (map h l).
Proof. induction l as [|a l IH]; intros H; cbn [mapr map]; auto.
  rewrite H by (left; auto). cbn. rewrite IH by (intros; apply H; right; auto). reflexivity. Qed.
Lemma wfb_forallb a : wfb a <-> forallb byteb a = true.
Proof. unfold wfb. rewrite forallb_forall, Forall_forall. unfold byteb.
  split; intros H x Hx; specialize (H x Hx); lia. Qed.
Lemma wfb_In a x : wfb a -> In x a -> 0 <= x < 256.
Proof. unfold wfb. rewrite Forall_forall. auto. Qed.

Lemma eth_init_groups sep (f : Z -> text) (a : bytes) :
  sep = 58 \/ sep = 45 -> addr6 a ->
  (forall b, 0 <= b < 256 -> int16 (f b) = Ok b /\ ~ In 58 (f b) /\ ~ In 45 (f b)) ->
  eth_init (AStr (join sep (map f a))) = Ok a.
Proof.
  intros Hsep (Hw & Hl) Hf.
  assert (Hne : map f a <> []) by (destruct a; [discriminate|cbn; congruence]).
  assert (H58 : Forall (fun g => ~ In 58 g) (map f a)).
  { apply Forall_forall. intros g Hg. apply in_map_iff in Hg as (b & <- & Hb). apply Hf, (wfb_In a); auto. }
  assert (H45 : Forall (fun g => ~ In 45 g) (map f a)).
  { apply Forall_forall. intros g Hg. apply in_map_iff in Hg as (b & <- & Hb). apply Hf, (wfb_In a); auto. }
  assert (Hm : mapr int16 (map f a) = Ok a).
  { rewrite (mapr_map int16 f a (fun x => x)), map_id; auto. intros b Hb. apply Hf, (wfb_In a); auto. }
  unfold eth_init.
  destruct Hsep as [-> | ->].
  - pose proof (count_join 58 (map f a) Hne H58) as Hc. rewrite map_length, Hl in Hc.
    replace (Nat.eqb (count 58 (join 58 (map f a))) 5) with true by (symmetry; apply Nat.eqb_eq; lia).
    rewrite split_join, Hm by auto. cbn. unfold bytes_of_ints.
    apply wfb_forallb in Hw as ->. cbn. destruct a; [discriminate|reflexivity].
  - pose proof (count_join 45 (map f a) Hne H45) as Hc. rewrite map_length, Hl in Hc.
    rewrite (count_nosep 58) by (apply join_nosep; auto; lia). cbn [Nat.eqb].
    replace (Nat.eqb (count 45 (join 45 (map f a))) 5) with true by (symmetry; apply Nat.eqb_eq; lia).
    rewrite split_join, Hm by auto. cbn. unfold bytes_of_ints.
    apply wfb_forallb in Hw as ->. cbn. destruct a; [discriminate|reflexivity].
Qed.

Theorem eth_str_round_trip a sep : addr6 a -> sep = 58 \/ sep = 45 ->
  eth_init (AStr (to_str sep a)) = Ok a /\
  eth_init (AStr (map upper (to_str sep a))) = Ok a.
Proof. intros Ha Hs. split.
  - unfold to_str. apply eth_init_groups; auto. intros b Hb.
    pose proof (hex2_int16 b Hb). pose proof (hex2_nosep b Hb). tauto.
  - replace (map upper (to_str sep a)) with (join sep (map (fun b => map upper (hex2 b)) a)).
    + apply eth_init_groups; auto. intros b Hb.
      pose proof (hex2_int16 b Hb). pose proof (hex2_nosep b Hb). tauto.
    + unfold to_str. assert (upper sep = sep) as Hu by (destruct Hs; subst; reflexivity).
      rewrite <- (map_map hex2 (map upper)). clear Ha Hs. generalize (map hex2 a). intros gs.
      induction gs as [|g gs IH]; [reflexivity|]. cbn [map join]. destruct gs as [|g' gs]; [reflexivity|].
      cbn [map] in *. rewrite IH. rewrite map_app. cbn [map]. rewrite Hu. reflexivity.
Qed.

Lemma to_str_length a sep : length a = 6%nat -> length (to_str sep a) = 17%nat.
Proof. intros H. do 7 (destruct a as [|? a]; try discriminate). reflexivity. Qed.

Lemma to_str_layout x0 x1 x2 x3 x4 x5 sep :
  to_str sep [x0;x1;x2;x3;x4;x5] =
  hex2 x0 ++ sep :: hex2 x1 ++ sep :: hex2 x2 ++ sep :: hex2 x3 ++ sep :: hex2 x4 ++ sep :: hex2 x5.
Proof. reflexivity. Qed.

(** Order. *)
Lemma bytes_ltb_irrefl a : bytes_ltb a a = false.
Proof. induction a as [|x a IH]; cbn; auto. rewrite IH, Z.ltb_irrefl, andb_false_r. reflexivity. Qed.
Lemma bytes_ltb_trans a b c : bytes_ltb a b = true -> bytes_ltb b c = true -> bytes_ltb a c = true.
Proof. revert b c; induction a as [|x a IH]; intros [|y b] [|z c]; cbn; try discriminate; auto.
  intros H1 H2. apply orb_prop in H1, H2. destruct H1 as [H1|H1], H2 as [H2|H2].
  - lia.
  - apply andb_prop in H2 as [? _]. lia.
  - apply andb_prop in H1 as [? _]. lia.
  - apply andb_prop in H1 as [? H1], H2 as [? H2]. rewrite (IH _ _ H1 H2). lia. Qed.
Lemma bytes_trichotomy a b :
  (bytes_ltb a b = true /\ bytes_eqb a b = false /\ bytes_ltb b a = false) \/
  (bytes_ltb a b = false /\ bytes_eqb a b = true /\ bytes_ltb b a = false) \/
  (bytes_ltb a b = false /\ bytes_eqb a b = false /\ bytes_ltb b a = true).
Proof. revert b; induction a as [|x a IH]; intros [|y b]; cbn; auto.
  destruct (Z.lt_trichotomy x y) as [H|[H|H]].
  - replace (x <? y) with true by lia. replace (x =? y) with false by lia.
    replace (y <? x) with false by lia. replace (y =? x) with false by lia. cbn. auto.
  - subst. rewrite Z.ltb_irrefl, Z.eqb_refl. cbn. apply IH.
  - replace (x <? y) with false by lia. replace (x =? y) with false by lia.
    replace (y <? x) with true by lia. replace (y =? x) with false by lia. cbn. auto. Qed.

Lemma num48_acc a : forall acc, fold_left (fun acc b => 256 * acc + b) a acc = acc * 256 ^ Z.of_nat (length a) + unbe a.
Proof. induction a as [|x a IH]; intros acc; cbn [fold_left length unbe]; [cbn; lia|].
  rewrite IH, pow256_S. ring. Qed.
Lemma num48_unbe a : num48 a = unbe a.
Proof. unfold num48. rewrite num48_acc. lia. Qed.

Lemma bytes_ltb_num a : forall b, wfb a -> wfb b -> length a = length b ->
  (bytes_ltb a b = true <-> unbe a < unbe b).
Proof. induction a as [|x a IH]; intros [|y b] Ha Hb Hl; cbn [bytes_ltb unbe] in *; try discriminate; [lia|].
  apply wfb_cons in Ha as [Hx Ha]. apply wfb_cons in Hb as [Hy Hb]. injection Hl as Hl.
  specialize (IH b Ha Hb Hl). pose proof (unbe_range a Ha) as Ra. pose proof (unbe_range b Hb) as Rb.
  rewrite Hl in *. set (p := 256 ^ Z.of_nat (length b)) in *.
  destruct (Z.lt_trichotomy x y) as [H|[H|H]].
  - replace (x <? y) with true by lia. cbn. split; [intros _; nia|auto].
  - subst. rewrite Z.ltb_irrefl, Z.eqb_refl. cbn. rewrite IH. lia.
  - replace (x <? y) with false by lia. replace (x =? y) with false by lia. cbn. split; [discriminate|nia]. Qed.

(** Numerals. *)
Lemma hexdig_digit c d : hexdig c d <-> digit16 c = Some d.
Proof. unfold digit16. split.
  - intros [x H|x H|x H].
    + replace (_ && _) with true by lia. f_equal; lia.
    + replace ((48 <=? _) && _) with false by lia. replace (_ && _) with true by lia. f_equal; lia.
    + replace ((48 <=? _) && _) with false by lia. replace ((97 <=? _) && _) with false by lia.
      replace (_ && _) with true by lia. f_equal; lia.
  - destruct ((48 <=? c) && _) eqn:E1.
    { intros [= <-]. replace c with (48 + (c - 48)) at 1 by lia. constructor; lia. }
    destruct ((97 <=? c) && _) eqn:E2.
    { intros [= <-]. replace c with (87 + (c - 87)) at 1 by lia. constructor; lia. }
    destruct ((65 <=? c) && _) eqn:E3; [|discriminate].
    intros [= <-]. replace c with (55 + (c - 55)) at 1 by lia. constructor; lia. Qed.

(** What follows the digits is not a digit and not an underscore. *)
Definition stops (s : text) : Prop :=
  match s with [] => True | c :: _ => c <> 95 /\ digit16 c = None end.

Lemma scan16_sound s :
  (forall acc v rest, scan16 false acc s = Ok (v, rest) ->
     exists ds, s = ds ++ rest /\ more acc ds v /\ stops rest) /\
  (forall acc v rest, scan16 true acc s = Ok (v, rest) ->
     exists c d ds, s = c :: ds ++ rest /\ hexdig c d /\ more (16 * acc + d) ds v /\ stops rest).
Proof. induction s as [|c s [IH1 IH2]]; split; intros acc v rest H; cbn [scan16] in H.
  - inversion H; subst. exists []. repeat split. constructor.
  - discriminate.
  - destruct (Z.eqb_spec c 95) as [->|Hc].
    + apply IH2 in H as (c & d & ds & -> & Hd & Hm & Hs). exists (95 :: c :: ds). repeat split; auto.
      eapply more_us; eauto.
    + destruct (digit16 c) as [d|] eqn:Ed.
      * apply IH1 in H as (ds & -> & Hm & Hs). exists (c :: ds). repeat split; auto.
        eapply more_dig; eauto. apply hexdig_digit; auto.
      * inversion H; subst. exists []. repeat split; auto. constructor.
  - destruct (Z.eqb_spec c 95) as [->|Hc]; [discriminate|].
    destruct (digit16 c) as [d|] eqn:Ed; [|discriminate].
    apply IH1 in H as (ds & -> & Hm & Hs). exists c, d, ds. repeat split; auto. apply hexdig_digit; auto. Qed.

Lemma hexdig_not95 c d : hexdig c d -> (c =? 95) = false.
Proof. intros []; lia. Qed.

Lemma scan16_complete acc ds v rest : more acc ds v -> stops rest -> scan16 false acc (ds ++ rest) = Ok (v, rest).
Proof. intros H Hs. induction H as [acc|acc c d s v Hd Hm IH|acc c d s v Hd Hm IH]; cbn [app scan16].
  - destruct rest as [|c rest]; cbn [scan16]; auto. destruct Hs as [Hn Hd].
    replace (c =? 95) with false by lia. rewrite Hd. reflexivity.
  - rewrite (hexdig_not95 c d Hd). apply hexdig_digit in Hd as ->. auto.
  - cbn. rewrite (hexdig_not95 c d Hd). apply hexdig_digit in Hd as ->. auto. Qed.

Lemma isspace_blank c : isspace c = true <-> blank c.
Proof. unfold isspace, blank. lia. Qed.
Lemma lstrip_split s : exists w, s = w ++ lstrip s /\ Forall blank w /\
  match lstrip s with [] => True | c :: _ => ~ blank c end.
Proof. induction s as [|c s (w & E & Hw & Hs)]; cbn [lstrip].
  - exists []. auto.
  - destruct (isspace c) eqn:Ec.
    + exists (c :: w). repeat split; auto. { cbn. congruence. } constructor; auto. apply isspace_blank; auto.
    + exists []. repeat split; auto. intros Hb. apply isspace_blank in Hb. congruence. Qed.
Lemma lstrip_blanks w s : Forall blank w -> lstrip (w ++ s) = lstrip s.
Proof. induction 1 as [|c w Hc Hw IH]; cbn; auto. apply isspace_blank in Hc as ->. auto. Qed.
Lemma lstrip_nonblank c s : ~ blank c -> lstrip (c :: s) = c :: s.
Proof. intros H. cbn. destruct (isspace c) eqn:E; auto. apply isspace_blank in E. contradiction. Qed.
Lemma lstrip_all w : Forall blank w -> lstrip w = [].
Proof. intros H. rewrite <- (app_nil_r w), lstrip_blanks; auto. Qed.

Lemma stops_blank w : Forall blank w -> stops w.
Proof. intros H. destruct H as [|c w Hc Hw]; cbn; auto. unfold blank in Hc. unfold digit16.
  split; [lia|].
  replace ((48 <=? c) && (c <=? 57)) with false by lia.
  replace ((97 <=? c) && (c <=? 102)) with false by lia.
  replace ((65 <=? c) && (c <=? 70)) with false by lia. reflexivity. Qed.

Lemma skip_prefix_ok p s v w : prefix16 p -> digits s v -> Forall blank w -> skip_prefix (p ++ s ++ w) = s ++ w.
Proof. intros Hp (c & d & s' & -> & Hd & Hm) Hw.
  assert (Hc : c <> 95 /\ c <> 120 /\ c <> 88) by (destruct Hd; lia).
  destruct Hp as [-> |[-> |[-> |[-> | ->]]]]; cbn [app skip_prefix].
  - assert (Hn : match s' ++ w with x :: _ => x <> 120 /\ x <> 88 | [] => True end).
    { destruct Hm as [|? c' d' ? ? Hd' ?|]; cbn [app].
      - destruct Hw as [|x w Hx Hw]; auto. unfold blank in Hx. lia.
      - destruct Hd'; lia.
      - lia. }
    destruct (s' ++ w) as [|x r]; auto. replace ((c =? 48) && _) with false by lia. reflexivity.
  - change (48 =? 48) with true. change (120 =? 120) with true. cbn.
    replace (c =? 95) with false by lia. reflexivity.
  - cbn. replace (c =? 95) with false by lia. reflexivity.
  - reflexivity.
  - reflexivity. Qed.

Lemma scan_digits s v w : digits s v -> Forall blank w -> scan16 true 0 (s ++ w) = Ok (v, w).
Proof. intros (c & d & s' & -> & Hd & Hm) Hw. cbn [app scan16].
  rewrite (hexdig_not95 c d Hd). pose proof Hd as Hd'. apply hexdig_digit in Hd' as ->.
  change (16 * 0 + d) with d. apply scan16_complete; auto. apply stops_blank; auto. Qed.

Lemma first_char p s v w : prefix16 p -> digits s v -> exists c r, p ++ s ++ w = c :: r /\ ~ blank c /\ c <> 43 /\ c <> 45.
Proof. intros Hp (c & d & s' & -> & Hd & Hm).
  destruct Hp as [-> |[-> |[-> |[-> | ->]]]]; cbn [app]; do 2 eexists; (split; [reflexivity|]);
  unfold blank; destruct Hd; lia. Qed.

Theorem int16_complete s v : numeral s v -> int16 s = Ok v.
Proof. intros [w1 p ds w2 x Hw1 Hw2 Hp Hd|w1 p ds w2 x Hw1 Hw2 Hp Hd|w1 p ds w2 x Hw1 Hw2 Hp Hd]; unfold int16.
  - rewrite lstrip_blanks by auto. destruct (first_char p ds x w2 Hp Hd) as (c & r & E & Hb & H1 & H2).
    rewrite E, lstrip_nonblank by auto. replace (c =? 43) with false by lia. replace (c =? 45) with false by lia.
    rewrite <- E, (skip_prefix_ok p ds x w2), (scan_digits ds x w2) by auto. cbn.
    rewrite lstrip_all by auto. reflexivity.
  - rewrite lstrip_blanks, lstrip_nonblank by (auto; unfold blank; lia).
    change (43 =? 43) with true. cbn iota.
    rewrite (skip_prefix_ok p ds x w2), (scan_digits ds x w2) by auto. cbn.
    rewrite lstrip_all by auto. reflexivity.
  - rewrite lstrip_blanks, lstrip_nonblank by (auto; unfold blank; lia).
    change (45 =? 43) with false. change (45 =? 45) with true. cbn iota.
    rewrite (skip_prefix_ok p ds x w2), (scan_digits ds x w2) by auto. cbn.
    rewrite lstrip_all by auto. reflexivity. Qed.

Lemma skip_prefix_split s : exists p, prefix16 p /\ s = p ++ skip_prefix s.
Proof. unfold prefix16. destruct s as [|z [|x s]]; cbn [skip_prefix]; [exists []; auto|exists []; auto|].
  destruct ((z =? 48) && ((x =? 120) || (x =? 88))) eqn:E; [|exists []; auto].
  assert (z = 48) by lia. assert (x = 120 \/ x = 88) by lia. subst z.
  destruct s as [|u s].
  - exists [48; x]. destruct H0; subst; auto.
  - destruct (Z.eqb_spec u 95) as [->|].
    + exists [48; x; 95]. destruct H0; subst; auto 6.
    + exists [48; x]. destruct H0; subst; auto. Qed.

Lemma lstrip_nil_blank s : lstrip s = [] -> Forall blank s.
Proof. intros H. destruct (lstrip_split s) as (w & E & Hw & _). rewrite H, app_nil_r in E. subst; auto. Qed.

Theorem int16_sound s v : int16 s = Ok v -> numeral s v.
Proof. unfold int16. destruct (lstrip_split s) as (w1 & E & Hw1 & Hnb).
  intros H.
  assert (Hgen : forall t (neg : bool),
    ('(v0, rest) <- scan16 true 0 (skip_prefix t);;
       match lstrip rest with [] => Ok (if neg then - v0 else v0) | _ => Err EValue end) = Ok v ->
    exists p ds x w2, t = p ++ ds ++ w2 /\ prefix16 p /\ digits ds x /\ Forall blank w2 /\ v = if neg then - x else x).
  { intros t neg Ht. apply bindr_ok in Ht as ([x rest] & Hs & Ht).
    destruct (lstrip rest) eqn:El; [|discriminate]. injection Ht as Ht.
    apply scan16_sound in Hs as (c & d & ds & Hs & Hd & Hm & _).
    destruct (skip_prefix_split t) as (p & Hp & Et). exists p, (c :: ds), x, rest.
    split; [rewrite Et, Hs; reflexivity|]. split; [auto|]. split; [exists c, d, ds; auto|].
    split; [apply lstrip_nil_blank; auto|]. congruence. }
  destruct (lstrip s) as [|c s'] eqn:Es.
  - cbn in H. discriminate.
  - destruct (Z.eqb_spec c 43) as [->|]; [|destruct (Z.eqb_spec c 45) as [->|]].
    + apply (Hgen s' false) in H as (p & ds & x & w2 & -> & Hp & Hd & Hw2 & ->).
      rewrite E. apply num_plus; auto.
    + apply (Hgen s' true) in H as (p & ds & x & w2 & -> & Hp & Hd & Hw2 & ->).
      rewrite E. apply num_minus; auto.
    + apply (Hgen (c :: s') false) in H as (p & ds & x & w2 & Ec & Hp & Hd & Hw2 & ->).
      rewrite E, Ec. apply num_plain; auto. Qed.

Lemma mapr_ok {A B} (f : A -> res B) l : forall bs, mapr f l = Ok bs <-> Forall2 (fun a b => f a = Ok b) l bs.
Proof. induction l as [|a l IH]; intros bs; cbn [mapr].
  - split; [intros [= <-]; constructor|intros H; inversion H; reflexivity].
  - rewrite bindr_ok. split.
    + intros (b & Hb & H). apply bindr_ok in H as (bs' & H & E). inversion E; subst.
      constructor; auto. apply IH; auto.
    + intros H; inversion H; subst. exists y. split; auto. apply IH in H4 as ->. reflexivity. Qed.

Lemma Forall2_impl {A B} (P Q : A -> B -> Prop) l1 l2 :
  (forall a b, P a b -> Q a b) -> Forall2 P l1 l2 -> Forall2 Q l1 l2.
Proof. intros H. induction 1; constructor; auto. Qed.

Lemma Forall2_len {A B} (P : A -> B -> Prop) l1 l2 : Forall2 P l1 l2 -> length l1 = length l2.
Proof. induction 1; cbn; congruence. Qed.

(** The accepted texts, exactly. *)
Definition addr_text (sep : Z) (s : text) (a : bytes) : Prop :=
  exists gs, s = join sep gs /\ length gs = 6%nat /\ Forall (fun g => ~ In sep g) gs /\
             Forall2 (fun g b => numeral g b) gs a /\ wfb a.

Lemma groups_iff sep s a : count sep s = 5%nat ->
  ((l <- mapr int16 (split sep s);; bytes_of_ints l) = Ok a <-> addr_text sep s a).
Proof. intros Hc. split.
  - intros H. apply bindr_ok in H as (l & Hl & H). unfold bytes_of_ints in H.
    destruct (forallb byteb l) eqn:Hb; [|discriminate]. injection H as <-.
    exists (split sep s). rewrite join_split, count_split, Hc. repeat match goal with |- _ /\ _ => split end; auto using split_groups.
    + apply mapr_ok in Hl. eapply Forall2_impl; [|exact Hl]. intros g b Hg. apply int16_sound; auto.
    + apply wfb_forallb; auto.
  - intros (gs & -> & Hl & Hn & H2 & Hw). assert (gs <> []) by (intros ->; discriminate Hl). rewrite split_join by auto.
    apply bindr_ok. exists a. split.
    + apply mapr_ok. eapply Forall2_impl; [|exact H2]. intros g b Hg. apply int16_complete; auto.
    + unfold bytes_of_ints. apply wfb_forallb in Hw as ->. reflexivity. Qed.

Lemma addr_text_count sep s a : addr_text sep s a -> count sep s = 5%nat /\ length a = 6%nat.
Proof. intros (gs & -> & Hl & Hn & H2 & Hw).
  pose proof (count_join sep gs ltac:(destruct gs; [discriminate|congruence]) Hn).
  apply Forall2_len in H2. pose proof (eq_trans H Hl) as H0. pose proof (eq_trans (eq_sym H2) Hl) as H3. injection H0 as H0. auto. Qed.

Theorem eth_init_text s a :
  eth_init (AStr s) = Ok a <->
  (addr_text 58 s a \/ (count 58 s <> 5%nat /\ addr_text 45 s a)).
Proof. unfold eth_init. split.
  - intros H. apply bindr_ok in H as (v & Hv & H). destruct v as [|x v]; [discriminate|]. injection H as <-.
    destruct (Nat.eqb_spec (count 58 s) 5) as [E|E].
    + apply groups_iff in Hv; auto.
    + destruct (Nat.eqb_spec (count 45 s) 5) as [E'|E']; [|discriminate].
      apply groups_iff in Hv; auto.
  - intros [H|[Hn H]].
    + pose proof (addr_text_count _ _ _ H) as [Hc Hl]. rewrite Hc. cbn [Nat.eqb].
      apply groups_iff in H as ->; auto. cbn. destruct a; [discriminate|reflexivity].
    + pose proof (addr_text_count _ _ _ H) as [Hc Hl].
      replace (Nat.eqb (count 58 s) 5) with false by (symmetry; apply Nat.eqb_neq; auto).
      rewrite Hc. cbn [Nat.eqb].
      apply groups_iff in H as ->; auto. cbn. destruct a; [discriminate|reflexivity]. Qed.

Lemma eth_init_str_six s a : eth_init (AStr s) = Ok a -> addr6 a.
Proof. intros H. apply eth_init_text in H as [H|[_ H]]; pose proof (addr_text_count _ _ _ H) as [_ Hl];
  destruct H as (gs & _ & _ & _ & _ & Hw); split; auto. Qed.

Lemma land1_odd x : Z.land x 1 = x mod 2.
Proof. change 1 with (2 ^ 1 - 1) at 1. rewrite land_ones_mod by lia. reflexivity. Qed.
Lemma land2 x : 0 <= x < 256 -> (Z.land x 2 =? 0) = ((x / 2) mod 2 =? 0).
Proof. intros H. apply (sweep (fun x => Bool.eqb (Z.land x 2 =? 0) ((x / 2) mod 2 =? 0))) in H.
  - apply eqb_prop in H. exact H.
  - vm_compute. reflexivity. Qed.

Theorem eth_classes a : addr6 a ->
  is_multicast a = Ok (Z.odd (num48 a / 2 ^ 40)) /\
  is_local a = Ok (Z.odd (num48 a / 2 ^ 41)) /\
  is_bridge_filtered a = Ok ((0x0180C2000000 <=? num48 a) && (num48 a <=? 0x0180C200000F)).
Proof. intros (Hw & Hl). do 7 (destruct a as [|? a]; try discriminate).
  repeat (apply wfb_cons in Hw as [? Hw]).
  unfold num48. cbn [fold_left].
  set (n := 256 * (256 * (256 * (256 * (256 * (256 * 0 + z) + z0) + z1) + z2) + z3) + z4).
  assert (Hn : n / 2 ^ 40 = z) by (unfold n; change (2 ^ 40) with 1099511627776; lia).
  assert (Hn2 : n / 2 ^ 41 = z / 2) by (unfold n; change (2 ^ 41) with 2199023255552; lia).
  rewrite Hn, Hn2. repeat split.
  - unfold is_multicast, getb. cbn [nth_error bindr]. rewrite land1_odd. f_equal.
    rewrite Zodd_mod. rewrite Zeq_is_eq_bool || idtac. destruct (Z.eqb_spec (z mod 2) 0).
    + rewrite e. reflexivity.
    + replace (z mod 2) with 1 by lia. reflexivity.
  - unfold is_local, getb. cbn [nth_error bindr]. rewrite land2 by auto. f_equal.
    rewrite Zodd_mod. destruct (Z.eqb_spec ((z / 2) mod 2) 0).
    + rewrite e. reflexivity.
    + replace ((z / 2) mod 2) with 1 by lia. reflexivity.
  - unfold is_bridge_filtered, getb, andr. cbn [nth_error bindr].
    destruct (z =? 0x01) eqn:E0; cbn [bindr]; [|f_equal; subst n; lia].
    destruct (z0 =? 0x80) eqn:E1; cbn [bindr]; [|f_equal; subst n; lia].
    destruct (z1 =? 0xC2) eqn:E2; cbn [bindr]; [|f_equal; subst n; lia].
    destruct (z2 =? 0) eqn:E3; cbn [bindr]; [|f_equal; subst n; lia].
    destruct (z3 =? 0) eqn:E4; cbn [bindr]; f_equal; subst n; lia.
Qed.

Lemma numeral_chars x g b : x = 58 -> numeral g b -> ~ In x g.
Proof.
  intros -> H.
  assert (Hb : forall w, Forall blank w -> ~ In 58 w).
  { intros w Hw Hi. rewrite Forall_forall in Hw. specialize (Hw _ Hi). unfold blank in Hw. lia. }
  assert (Hm : forall acc s v, more acc s v -> ~ In 58 s).
  { induction 1 as [|acc c d s v Hd Hm IH|acc c d s v Hd Hm IH]; intros Hi.
    - destruct Hi.
    - destruct Hi as [Hi|Hi]; auto. destruct Hd; lia.
    - destruct Hi as [Hi|[Hi|Hi]]; auto; [lia|]. destruct Hd; lia. }
  assert (Hd : forall s v, digits s v -> ~ In 58 s).
  { intros s v (c & d & s' & -> & Hd & H') [Hi|Hi]; [destruct Hd; lia|]. eapply Hm; eauto. }
  assert (Hp : forall p, prefix16 p -> ~ In 58 p).
  { intros p [-> |[-> |[-> |[-> | ->]]]]; cbn; lia. }
  destruct H as [w1 p t w2 v H1 H2 H3 H4|w1 p t w2 v H1 H2 H3 H4|w1 p t w2 v H1 H2 H3 H4];
  apply Hb in H1; apply Hb in H2; apply Hp in H3; apply Hd in H4;
  rewrite ?in_app_iff; cbn [In]; rewrite ?in_app_iff; intuition lia.
Qed.

Lemma addr_text_iff sep s a : addr_text sep s a <-> address_text sep s a.
Proof. split.
  - intros (gs & -> & Hl & Hn & H2 & Hw).
    do 7 (destruct gs as [|? gs]; try discriminate).
    repeat match goal with H : Forall2 _ (_ :: _) _ |- _ => inversion H; clear H; subst | H : Forall2 _ [] _ |- _ => inversion H; clear H; subst end.
    repeat match goal with H : Forall _ (_ :: _) |- _ => inversion H; clear H; subst end.
    do 12 eexists. split; [reflexivity|]. split; [reflexivity|].
    split; [repeat split; eassumption|]. split; [repeat split; eassumption|].
    repeat (apply wfb_cons in Hw as [? Hw]). lia.
  - intros (g0 & g1 & g2 & g3 & g4 & g5 & b0 & b1 & b2 & b3 & b4 & b5 & -> & -> & Hn & Hv & Hr).
    exists [g0;g1;g2;g3;g4;g5]. decompose [and] Hn. decompose [and] Hv.
    split; [reflexivity|]. split; [reflexivity|]. split; [repeat constructor; assumption|].
    split; [repeat constructor; assumption|]. repeat constructor; lia. Qed.

Theorem eth_text_exact s a :
  eth_init (AStr s) = Ok a <-> address_text 58 s a \/ address_text 45 s a.
Proof. rewrite eth_init_text, !addr_text_iff. split; [tauto|].
  intros [H|H]; [auto|]. right; split; auto. intros Hc.
  destruct H as (g0 & g1 & g2 & g3 & g4 & g5 & b0 & b1 & b2 & b3 & b4 & b5 & -> & -> & Hn & Hv & Hr).
  decompose [and] Hv.
  repeat match goal with H : numeral _ _ |- _ => apply (numeral_chars 58 _ _ eq_refl) in H end.
  rewrite count_nosep in Hc; [discriminate|].
  repeat (rewrite ?in_app_iff; cbn [In]). intuition lia. Qed.

Lemma hex2_pair b : 0 <= b < 256 -> hexpair (hex2 b) b.
Proof. intros H. exists (hexdigit (b / 16)), (b / 16), (hexdigit (b mod 16)), (b mod 16).
  unfold hex2, lowhex, hexdigit. split; [reflexivity|].
  destruct (Z.ltb_spec (b / 16) 10), (Z.ltb_spec (b mod 16) 10); lia. Qed.

Theorem eth_text_form a : addr6 a ->
  (forall sep, sep = 58 \/ sep = 45 ->
     eth_init (AStr (to_str sep a)) = Ok a /\ eth_init (AStr (upcase (to_str sep a))) = Ok a) /\
  exists g0 g1 g2 g3 g4 g5 b0 b1 b2 b3 b4 b5,
    a = [b0; b1; b2; b3; b4; b5] /\
    to_str 58 a = g0 ++ 58 :: g1 ++ 58 :: g2 ++ 58 :: g3 ++ 58 :: g4 ++ 58 :: g5 /\
    hexpair g0 b0 /\ hexpair g1 b1 /\ hexpair g2 b2 /\ hexpair g3 b3 /\ hexpair g4 b4 /\ hexpair g5 b5 /\
    length (to_str 58 a) = 17%nat.
Proof. intros Ha. split.
  - intros sep Hs. apply (eth_str_round_trip a sep Ha Hs).
  - destruct Ha as (Hw & Hl). do 7 (destruct a as [|? a]; try discriminate).
    repeat (apply wfb_cons in Hw as [? Hw]).
    do 12 eexists. split; [reflexivity|]. split; [apply to_str_layout|].
    repeat (split; [apply hex2_pair; assumption|]). reflexivity. Qed.

Theorem eth_text_injective a b sep : sep = 58 \/ sep = 45 -> addr6 a -> addr6 b ->
  to_str sep a = to_str sep b -> a = b.
Proof. intros Hs Ha Hb H. pose proof (eth_str_round_trip a sep Ha Hs) as [H1 _].
  pose proof (eth_str_round_trip b sep Hb Hs) as [H2 _]. congruence. Qed.

Lemma eth_of_addr a : addr6 a -> eth_init (AEth a) = Ok a.
Proof. intros (_ & Hl). destruct a; [discriminate|reflexivity]. Qed.

(** The comparison of two address objects, in terms of their 48-bit numbers. *)
Theorem eth_compare a b : addr6 a -> addr6 b ->
  eth_eq a (AEth b) = Ok (num48 a =? num48 b) /\
  eth_lt a (AEth b) = Ok (num48 a <? num48 b) /\
  (num48 a = num48 b <-> a = b).
Proof. intros Ha Hb. unfold eth_eq, eth_lt. rewrite (eth_of_addr b Hb). cbn [bindr].
  destruct Ha as (Ha & La), Hb as (Hb & Lb).
  assert (Hi : num48 a = num48 b <-> a = b).
  { rewrite !num48_unbe. split; [|congruence]. intros. apply unbe_inj; auto. congruence. }
  repeat split.
  - f_equal. apply eq_true_iff_eq. rewrite bytes_eqb_eq, Z.eqb_eq. tauto.
  - f_equal. apply eq_true_iff_eq. rewrite Z.ltb_lt, !num48_unbe. apply bytes_ltb_num; auto. congruence.
  - apply Hi.
  - apply Hi. Qed.

Theorem eth_order_any_length a b c :
  bytes_ltb a a = false /\
  (bytes_ltb a b = true -> bytes_ltb b c = true -> bytes_ltb a c = true) /\
  (bytes_eqb a b = true <-> a = b) /\
  ((bytes_ltb a b = true /\ bytes_eqb a b = false /\ bytes_ltb b a = false) \/
  (bytes_ltb a b = false /\ bytes_eqb a b = true /\ bytes_ltb b a = false) \/
  (bytes_ltb a b = false /\ bytes_eqb a b = false /\ bytes_ltb b a = true)).
Proof. split; [apply bytes_ltb_irrefl|]. split; [apply bytes_ltb_trans|]. split; [apply bytes_eqb_eq|].
  apply bytes_trichotomy. Qed.

Theorem eth_from_bytes b : (6 <= length b)%nat -> eth_init (ABytes b) = Ok (firstn 6 b).
Proof. intros H. unfold eth_init. cbn [bindr]. destruct b as [|x b]; cbn in *; [lia|reflexivity]. Qed.

Theorem eth_order_laws a b c (hash : bytes -> Z) : addr6 a -> addr6 b -> addr6 c ->
  eth_lt a (AEth a) = Ok false /\ eth_eq a (AEth a) = Ok true /\
  (eth_lt a (AEth b) = Ok true -> eth_lt b (AEth c) = Ok true -> eth_lt a (AEth c) = Ok true) /\
  (eth_eq a (AEth b) = Ok true -> eth_eq b (AEth a) = Ok true) /\
  (eth_eq a (AEth b) = Ok true -> eth_eq b (AEth c) = Ok true -> eth_eq a (AEth c) = Ok true) /\
  ((eth_lt a (AEth b) = Ok true /\ eth_eq a (AEth b) = Ok false /\ eth_lt b (AEth a) = Ok false) \/
   (eth_lt a (AEth b) = Ok false /\ eth_eq a (AEth b) = Ok true /\ eth_lt b (AEth a) = Ok false) \/
   (eth_lt a (AEth b) = Ok false /\ eth_eq a (AEth b) = Ok false /\ eth_lt b (AEth a) = Ok true)) /\
  (eth_eq a (AEth b) = Ok true -> hash a = hash b).
Proof. intros Ha Hb Hc.
  destruct (eth_compare a a Ha Ha) as (-> & -> & _).
  destruct (eth_compare a b Ha Hb) as (-> & -> & Hab).
  destruct (eth_compare b c Hb Hc) as (-> & -> & _).
  destruct (eth_compare b a Hb Ha) as (-> & -> & _).
  destruct (eth_compare a c Ha Hc) as (-> & -> & _).
  assert (T : forall x y : bool, Ok x = Ok y <-> x = y) by (intros; split; congruence).
  rewrite !T. repeat split; try lia.
  intros H. assert (num48 a = num48 b) as E by lia. apply Hab in E. congruence. Qed.

Theorem eth_eq_odd :
  (exists a, addr6 a /\ eth_eq a ANone = Ok true) /\
  (forall a, eth_eq a AOther = Err ERuntime).
Proof. split; [|reflexivity]. exists [0;0;0;0;0;0]. repeat split. repeat constructor; lia. Qed.
