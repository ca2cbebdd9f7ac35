(** C86: link capacities and delays as text. *)
From Coq Require Import QArith Qabs Qpower Lqa Lia.
From Verif Require Import Base BaseLemmas EthAddrModel UserModel UnitModel UnitSpec UnitProofs UnitText UnitDelay.
Local Open Scope Z_scope.

(** The model's rounding is IEEE rounding to the nearest double. *)
Theorem C86_rounding : forall x, nearest x (rnd x).
Proof. exact rnd_nearest. Qed.
Print Assumptions C86_rounding.

(** A capacity given as a whole number of a documented unit is read exactly. *)
Theorem C86_capacity : forall lead num n mid unit k, Forall blank lead -> numeral num (inject_Z n) -> Forall blank mid -> cap_unit unit k -> n * k <= 2 ^ 53 ->
  unhumanize_bw (BText (lead ++ num ++ mid ++ unit)) = Ok (Some (n * k)).
Proof. exact reads_int. Qed.
Print Assumptions C86_capacity.
(** With a fraction, it is read to within one and a half bits per second (up to a quadrillion).
    Missing: the nearest whole number, which is false (below). *)
Theorem C86_capacity_fraction_partial : forall lead num v mid unit k, Forall blank lead -> numeral num v -> Forall blank mid -> cap_unit unit k -> (v * inject_Z k <= 1000000000000000)%Q ->
  exists n, unhumanize_bw (BText (lead ++ num ++ mid ++ unit)) = Ok (Some n) /\ (inject_Z n <= v * inject_Z k + (1 # 2))%Q /\ (v * inject_Z k < inject_Z n + (3 # 2))%Q.
Proof. exact reads. Qed.
Print Assumptions C86_capacity_fraction_partial.
(** "1.001 Kb/s" is read as 1000 bits per second. *)
Definition ex_1001 : text := [49; 46; 48; 48; 49].
Theorem C86_capacity_fraction_refuted : exists num v unit k, numeral num v /\ cap_unit unit k /\ (v * inject_Z k == inject_Z 1001)%Q /\
  unhumanize_bw (BText (num ++ 32 :: unit)) = Ok (Some 1000).
Proof.
  exists ex_1001. eexists. exists [75; 98; 47; 115], (10 ^ 3). split; [apply (nu_frac [49] [48; 48; 49]); [discriminate| |]; repeat constructor; discriminate|].
  split. { apply (cu_more 75 (10 ^ 3) 98 [47; 115]); [apply cu_one; cbn; tauto|repeat constructor; discriminate]. }
  split; [reflexivity|vm_compute; reflexivity].
Qed.
Print Assumptions C86_capacity_fraction_refuted.
(** A number followed by anything that does not start with a known letter is a capacity of 0, not an error. *)
Theorem C86_capacity_unit_fails : forall num v c r, numeral num v -> multiplier c = 0 -> numch c = false -> space c = false -> c <> 10 -> Forall (fun x => x <> 10) r ->
  unhumanize_bw (BText (num ++ 32 :: c :: r)) = Ok (Some 0).
Proof.
  intros num v c r Hv Hm Hc Hs H10 Hr. destruct (numeral_numch _ _ Hv) as (A & B & C).
  pose proof (read_bw [] num (rnd v) [32] (c :: r) ltac:(constructor) A B C ltac:(repeat constructor)) as R. cbv zeta in R. cbn [nth app] in R.
  rewrite R; [|intros ? ? X; injection X as <- _; auto|constructor; assumption]. rewrite Hm. repeat f_equal.
  rewrite (rnd_Zeq (rnd v * inject_Z 0) 0) by (try (unfold inject_Z; ring); lia). 
  rewrite (rnd_Zeq _ 0) by (try (unfold inject_Z; ring); lia). reflexivity.
Qed.
Print Assumptions C86_capacity_unit_fails.
Theorem C86_capacity_unit_refuted : exists num v unit, numeral num v /\ ~ (v == 0)%Q /\ (forall k, ~ cap_unit unit k) /\ unhumanize_bw (BText (num ++ 32 :: unit)) = Ok (Some 0).
Proof.
  exists [49; 48], (inject_Z 10), [112; 97; 99; 107; 101; 116; 115].
  split; [apply (nu_int [49; 48]); [discriminate|repeat constructor; discriminate]|]. split; [discriminate|].
  split; [|vm_compute; reflexivity]. intros k H. inversion H as [| |? ? ? ? H1]; subst. inversion H1 as [|? ? H2|]; subst.
  cbn [In] in H2. repeat (destruct H2 as [H2|H2]; [discriminate|]). exact H2.
Qed.
Print Assumptions C86_capacity_unit_refuted.

(** Shown and read back, a capacity below a quadrillion is the same or one less; it is the same when it is a whole number
    of the unit shown. *)
Theorem C86_capacity_back_partial : forall repr b, prints_back repr -> 0 <= b < 10 ^ 15 -> exists t n, humanize_bw repr b = Ok t /\ unhumanize_bw (BText t) = Ok (Some n) /\
  (n = b \/ n = b - 1) /\ (whole b -> n = b).
Proof. exact cap_back. Qed.
Print Assumptions C86_capacity_back_partial.
(** Missing: the same number.  1001 bits per second comes back as 1000, whatever repr() prints. *)
Theorem C86_capacity_back_refuted : exists b, 0 <= b < 10 ^ 15 /\ forall repr t, prints_back repr -> humanize_bw repr b = Ok t -> unhumanize_bw (BText t) = Ok (Some (b - 1)).
Proof.
  exists 1001. split; [split; [discriminate|reflexivity]|]. intros repr t Hr Ht.
  pose (x := rnd (1001 # 1000)). assert (Ex : t = repr x ++ [32; 75; 98; 47; 115]) by (injection Ht as <-; reflexivity). rewrite Ex. clear Ht Ex.
  destruct (Hr x) as (v & Hv & Ev); [apply rnd_isdouble|vm_compute; discriminate|vm_compute; reflexivity|vm_compute; reflexivity|].
  destruct (numeral_numch _ _ Hv) as (A & B & C). rewrite Ev in C.
  pose proof (read_bw [] (repr x) x [32] [75; 98; 47; 115] ltac:(constructor) A B C ltac:(repeat constructor)) as R. cbv zeta in R. cbn [nth app] in R.
  rewrite R; [|intros ? ? X; injection X as <- _; split; reflexivity|repeat constructor; discriminate]. vm_compute. reflexivity.
Qed.
Print Assumptions C86_capacity_back_refuted.
(** There is such a repr(): one that prints every digit. *)
Theorem C86_repr : prints_back exact_repr.
Proof. exact exact_repr_back. Qed.
Print Assumptions C86_repr.

(** A delay is read as the double nearest to what was written, when the number itself is a double (whole numbers up to
    2^53 are); otherwise to within one part in 2^51. *)
Theorem C86_delay : forall lead num v mid u k tail, Forall blank lead -> numeral num v -> Forall blank mid -> delay_unit u k ->
  (forall c r, tail = c :: r -> ends_unit c) ->
  exists q, unhumanize_delay (DText (lead ++ num ++ mid ++ u ++ tail)) = Ok (Some q) /\
  (Qabs (q - v / inject_Z k) <= v / inject_Z k * (1 # 2 ^ 51))%Q /\ (double v -> nearest (v / inject_Z k) q).
Proof. intros lead num v mid u k tail A B C D E. apply delay_reads; auto. intros c r X. exact (ends_unit_ok c (E c r X)). Qed.
Print Assumptions C86_delay.
(** A delay from a microsecond up (to some 35 years) is shown as the nearest whole number of microseconds, in the largest unit that
    leaves no fraction. *)
Theorem C86_delay_shown : forall repr x, (0 <= x)%Q -> (x * 1000000 < 1125899906842624)%Q -> exists n,
  (Qabs (x * 1000000 - inject_Z n) <= (1 # 2))%Q /\ (0 < n -> shown n (humanize_delay repr x)).
Proof.
  intros repr x Hx Hm. exists (micros_of x). destruct (micros_near x) as [M|M]; [|apply Qnum_nonneg in Hx; lia]. split; [exact M|].
  intros P. apply shows; [exact Hx|reflexivity|]. split; [exact P|].
  apply Qabs_Qle_condition in M. assert (X : (inject_Z (micros_of x) < inject_Z (2 ^ 50 + 1))%Q) by (change (inject_Z (2 ^ 50 + 1)) with (1125899906842625 # 1)%Q; lra).
  rewrite <- Zlt_Qlt in X. lia.
Qed.
Print Assumptions C86_delay_shown.
(** Shown and read back, a delay of a whole number of seconds, or of one millisecond, is the same; every other delay of a
    whole number of microseconds cannot be read back. *)
Theorem C86_delay_back_partial : forall repr n x, 0 < n <= 2 ^ 50 -> n mod 1000000 = 0 \/ n = 1000 -> nearest (inject_Z n / 1000000) x ->
  exists q, unhumanize_delay (DText (humanize_delay repr x)) = Ok (Some q) /\ nearest (inject_Z n / 1000000) q.
Proof.
  intros repr n x Hn Hc Hx. destruct (nearest_micros n x ltac:(lia) Hx) as [X0 E]. apply (back n _ Hn (shows repr x n X0 E Hn)), Hc.
Qed.
Print Assumptions C86_delay_back_partial.
Theorem C86_delay_back_fails : forall repr n x, 0 < n <= 2 ^ 50 -> n mod 1000000 <> 0 -> n <> 1000 -> nearest (inject_Z n / 1000000) x ->
  unhumanize_delay (DText (humanize_delay repr x)) = Ok None.
Proof.
  intros repr n x Hn H1 H2 Hx. destruct (nearest_micros n x ltac:(lia) Hx) as [X0 E]. apply (back n _ Hn (shows repr x n X0 E Hn)). tauto.
Qed.
Print Assumptions C86_delay_back_fails.
Theorem C86_delay_back_refuted : exists x, (0 < x)%Q /\ forall repr, unhumanize_delay (DText (humanize_delay repr x)) = Ok None.
Proof.
  exists (rnd (1 # 10)). split; [vm_compute; reflexivity|]. intros repr. apply (C86_delay_back_fails repr 100000); [split; [reflexivity|discriminate]|discriminate|discriminate|].
  setoid_replace (inject_Z 100000 / 1000000)%Q with (1 # 10)%Q by reflexivity. apply rnd_nearest.
Qed.
Print Assumptions C86_delay_back_refuted.
(** Too many bits, and a number with two points, raise; text without a number gives None. *)
Theorem C86_errors : (forall repr b, 10 ^ 15 <= b -> humanize_bw repr b = Err EExc) /\
  (forall c r, numch c = false -> space c = false -> unhumanize_bw (BText (c :: r)) = Ok None /\ unhumanize_delay (DText (c :: r)) = Ok None).
Proof.
  split.
  - intros repr b H. unfold humanize_bw. change (10 ^ 3) with 1000. change (10 ^ 6) with 1000000. change (10 ^ 9) with 1000000000. change (10 ^ 12) with 1000000000000. change (10 ^ 15) with 1000000000000000 in *.
    destruct (Z.ltb_spec b 1000); [lia|]. destruct (Z.ltb_spec b 1000000); [lia|]. destruct (Z.ltb_spec b 1000000000); [lia|].
    destruct (Z.ltb_spec b 1000000000000); [lia|]. destruct (Z.ltb_spec b 1000000000000000); [lia|]. reflexivity.
  - intros c r H1 H2. unfold numch in H1. unfold unhumanize_bw, unhumanize_delay, re_number. cbn [span]. rewrite H2. cbn [snd span]. rewrite H1. auto.
Qed.
Print Assumptions C86_errors.

(** Cases: "  1.5  MB per sec", "10 msec", 1.5 Mb/s shown and read back, 0.2 ms and 2 s shown. *)
Example C86_example :
  unhumanize_bw (BText ([32; 32] ++ [49; 46; 53] ++ [32; 32] ++ [77; 66; 32; 112; 101; 114; 32; 115])) = Ok (Some 12000000) /\
  unhumanize_bw (BText [49; 48; 71]) = Ok (Some (10 * 10 ^ 9)) /\
  unhumanize_delay (DText ([49; 48] ++ [32] ++ [109; 115; 101; 99])) = Ok (Some (rnd (1 # 100))) /\
  humanize_bw exact_repr 1500000 = Ok [49; 46; 53; 32; 77; 98; 47; 115] /\ whole 150000 /\ ~ whole 1500000 /\
  humanize_delay exact_repr (rnd (1 # 5000)) = [50; 48; 48; 32; 181; 115; 101; 99; 115] /\
  humanize_delay exact_repr (rnd (2 # 1)) = [50; 32; 115; 101; 99; 115] /\
  nearest (inject_Z 200 / 1000000) (rnd (1 # 5000)).
Proof.
  split; [vm_compute; reflexivity|]. split; [vm_compute; reflexivity|]. split; [vm_compute; reflexivity|]. split; [vm_compute; reflexivity|].
  split; [exists (10 ^ 3); split; [cbn; tauto|split; [lia|reflexivity]]|].
  split. { intros (d & H & [_ H1] & H2). cbn [In] in H. repeat (destruct H as [H|H]; [subst d; try discriminate; lia|]). exact H. }
  split; [vm_compute; reflexivity|]. split; [vm_compute; reflexivity|].
  setoid_replace (inject_Z 200 / 1000000)%Q with (1 # 5000)%Q by reflexivity. apply rnd_nearest.
Qed.
