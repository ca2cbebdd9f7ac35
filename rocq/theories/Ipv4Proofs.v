From Verif Require Import BaseLemmas CodecLemmas EthAddrModel EthAddrSpec EthAddrProofs Enums EthModel ArpModel EthProofs
  ChecksumModel ChecksumSpec ChecksumProofs Ipv4Model.

(** ** Options *)
Definition wf_ts_entry (flag : Z) (e : option bytes * Z) : Prop :=
  0 <= snd e < 2 ^ 32 /\
  (if flag =? 0 then fst e = None else exists a, fst e = Some a /\ ip4 a).
Definition wf_opt (o : ipopt) : Prop :=
  match o with
  | OEnd | ONop => True
  | ORoute num ptr addrs =>
      (num = 3 \/ num = 7 \/ num = 9) /\ Forall ip4 addrs /\ zlen addrs <= 63 /\
      0 <= ptr < 256 /\ 1 <= ptr / 4 <= zlen addrs
  | OTs ptr flag entries =>
      0 <= ptr < 256 /\ 0 <= flag < 16 /\ Forall (wf_ts_entry flag) entries /\
      4 + zlen entries * (if flag =? 0 then 4 else 8) < 256
  | O4 num value copy =>
      ((num = 20 /\ copy = 0x80) \/ ((num = 11 \/ num = 12) /\ copy = 0)) /\ 0 <= value < 65536
  end.
Definition opt_num (o : ipopt) : Z :=
  match o with OEnd => 0 | ONop => 1 | ORoute n _ _ => n | OTs _ _ _ => 4 | O4 n _ _ => n end.

Lemma pack_bbb a b c : 0 <= a < 256 -> 0 <= b < 256 -> 0 <= c < 256 ->
  pack [fB; fB; fB] [VI a; VI b; VI c] = Ok [a; b; c].
Proof. intros. cbn [pack]. pow256. replace ((0 <=? a) && (a <? 256)) with true by lia.
  replace ((0 <=? b) && (b <? 256)) with true by lia. replace ((0 <=? c) && (c <? 256)) with true by lia.
  cbn [bindr]. rewrite !be1 by lia. reflexivity. Qed.
Lemma pack_bbbb a b c d : 0 <= a < 256 -> 0 <= b < 256 -> 0 <= c < 256 -> 0 <= d < 256 ->
  pack [fB; fB; fB; fB] [VI a; VI b; VI c; VI d] = Ok [a; b; c; d].
Proof. intros. cbn [pack]. pow256. replace ((0 <=? a) && (a <? 256)) with true by lia.
  replace ((0 <=? b) && (b <? 256)) with true by lia. replace ((0 <=? c) && (c <? 256)) with true by lia.
  replace ((0 <=? d) && (d <? 256)) with true by lia.
  cbn [bindr]. rewrite !be1 by lia. reflexivity. Qed.
Lemma unpack_bbbb a b c d : wfb [a; b; c; d] -> unpack [fB; fB; fB; fB] [a; b; c; d] = Ok [VI a; VI b; VI c; VI d].
Proof. intros Hw. repeat (apply wfb_cons in Hw as [? Hw]).
  rewrite (unpack_pack [fB; fB; fB; fB] [VI a; VI b; VI c; VI d] [a; b; c; d]); [reflexivity|].
  apply pack_bbbb; auto. Qed.

Lemma route_addrs_ok addrs : forall (i : nat) (pre : bytes) (t : bytes),
  Forall ip4 addrs -> length pre = (3 + i * 4)%nat ->
  route_addrs (length addrs) i (pre ++ concat addrs ++ t) = Ok addrs.
Proof. induction addrs as [|a addrs IH]; intros i pre t Hf Hl; cbn [route_addrs length concat]; auto.
  apply Forall_cons_iff in Hf as [(Wa & La) Hf].
  rewrite skipn_app_exact by auto. rewrite <- (app_assoc a), firstn_app_exact by auto.
  unfold ip4_of_bytes. rewrite La. cbn [Nat.eqb bindr].
  replace (pre ++ a ++ concat addrs ++ t) with ((pre ++ a) ++ concat addrs ++ t) by (rewrite <- app_assoc; reflexivity).
  rewrite IH; auto. rewrite app_length. lia. Qed.

Lemma ts_entries_ok flag es : 0 <= flag -> Forall (wf_ts_entry flag) es ->
  exists b, ts_entries_bytes flag es = Ok b /\ zlen b = zlen es * (if flag =? 0 then 4 else 8) /\ wfb b /\
            ts_parse (negb (flag =? 0)) b = Ok es.
Proof. intros Hfl. induction es as [|[a t] es IH]; intros Hf.
  - exists []. repeat split; auto with wfb.
  - apply Forall_cons_iff in Hf as [(Ht & Ha) Hf]. cbn [fst snd] in *.
    destruct (IH Hf) as (b & Hb & Lb & Wb & Pb). cbn [ts_entries_bytes].
    change (2 ^ 32) with 4294967296 in Ht.
    rewrite (pack_int 4) by (pow256; lia). cbn [bindr].
    assert (Hbe : exists w x y z, be 4 t = [w; x; y; z]) by (unfold be; eauto).
    pose proof (be_wfb 4 t) as Wbe. pose proof (unbe_be_small 4 t ltac:(pow256; lia)) as Ube.
    destruct Hbe as (w & x & y & z & Hbe). rewrite Hbe in *.
    destruct (Z.eqb_spec flag 0) as [->|Hn].
    + change (0 <? 0) with false. cbn iota. rewrite Hb. cbn [bindr]. eexists. split; [reflexivity|].
      split; [unfold zlen in *; cbn [app length]; lia|]. split; [cbn [app]; apply (wfb_app [w;x;y;z]); auto|].
      cbn [app negb ts_parse]. cbn [negb] in Pb. rewrite Pb. cbn [bindr]. rewrite Ube. subst a. reflexivity.
    + replace (0 <? flag) with true by lia. destruct Ha as (aa & -> & Wa & La).
      rewrite Hb. cbn [bindr].
      do 5 (destruct aa as [|? aa]; try discriminate).
      eexists. split; [reflexivity|].
      split; [unfold zlen in *; cbn [app length]; lia|]. split; [cbn [app]; apply (wfb_app (_::_::_::_::[w;x;y;z])); split; auto|].
      * repeat (apply wfb_cons in Wa as [? Wa]). repeat (apply wfb_cons; split; auto). 
      * cbn [app negb ts_parse]. cbn [negb] in Pb. rewrite Pb. cbn [bindr]. rewrite Ube. reflexivity. Qed.

Lemma firstn_le_app {A} n (a b : list A) : (n <= length a)%nat -> firstn n (a ++ b) = firstn n a.
Proof. intros H. rewrite firstn_app. replace (n - length a)%nat with O by lia. cbn. apply app_nil_r. Qed.

Lemma concat_len addrs : Forall ip4 addrs -> length (concat addrs) = (4 * length addrs)%nat.
Proof. induction 1 as [|a l (Wa & La) _ IH]; cbn; auto. rewrite app_length, IH. unfold bytes in *. lia. Qed.
Lemma concat_wfb addrs : Forall ip4 addrs -> wfb (concat addrs).
Proof. induction 1 as [|a l (Wa & La) _ IH]; cbn; auto with wfb. apply wfb_app; auto. Qed.

(** One option: it serialises, and parsing gives it back and eats exactly its bytes. *)
Lemma opt_parse o : wf_opt o ->
  exists x b, opt_to_bytes o = Ok (x :: b) /\ zlen (x :: b) = opt_length o /\ wfb (x :: b) /\
  Z.land x 0x1f = opt_num o /\ In (opt_num o) IPOptionNumbers /\
  forall t, opt_from_bytes (opt_num o) (x :: b ++ t) = Ok (o, zlen (x :: b)).
Proof.
  destruct o as [| |num ptr addrs|ptr flag es|num value copy]; intros H.
  - exists 0, []. repeat split; try (repeat constructor; lia); cbn; auto.
  - exists 1, []. repeat split; try (repeat constructor; lia); cbn; auto.
  - destruct H as (Hn & Ha & Hl & Hp & Hq). cbn [opt_to_bytes opt_length opt_num].
    pose proof (zlen_nonneg addrs).
    rewrite pack_bbb by (destruct Hn as [-> |[-> | ->]]; lia). cbn [bindr app].
    exists num, ((3 + zlen addrs * 4) :: ptr :: concat addrs).
    assert (Hlen : zlen (num :: 3 + zlen addrs * 4 :: ptr :: concat addrs) = 3 + zlen addrs * 4).
    { unfold zlen. cbn [length]. rewrite concat_len by auto. unfold zlen. lia. }
    repeat split; auto.
    + repeat (apply wfb_cons; split; [destruct Hn as [-> |[-> | ->]]; lia|]). apply concat_wfb; auto.
    + destruct Hn as [-> |[-> | ->]]; reflexivity.
    + destruct Hn as [-> |[-> | ->]]; cbn; auto 10.
    + intros t. unfold opt_from_bytes.
      replace (num =? 0) with false by lia. replace (num =? 1) with false by lia.
      replace ((num =? 3) || (num =? 7) || (num =? 9)) with true by lia.
      unfold getb. cbn [nth_error bindr app].
      replace (Z.to_nat ((3 + zlen addrs * 4 - 3) / 4)) with (length addrs).
      2:{ replace (3 + zlen addrs * 4 - 3) with (zlen addrs * 4) by lia. rewrite Z.div_mul by lia. unfold zlen. lia. }
      pose proof (route_addrs_ok addrs 0 [num; 3 + zlen addrs * 4; ptr] t Ha eq_refl) as E. cbn [app] in E.
      rewrite E. cbn [bindr]. unfold route_ptr_ok. replace (_ && _) with true by lia.
      rewrite Hlen. reflexivity.
  - destruct H as (Hp & Hfl & He & Hlen). cbn [opt_to_bytes opt_length opt_num].
    destruct (ts_entries_ok flag es ltac:(lia) He) as (b & Hb & Lb & Wb & Pb).
    pose proof (zlen_nonneg es).
    change (Z.lor 0x40 4) with 68.
    set (L := 4 + zlen es * (if flag =? 0 then 4 else 8)) in *.
    assert (HL : 4 <= L) by (destruct (flag =? 0); lia).
    rewrite pack_bbbb by lia. rewrite Hb. cbn [bindr app].
    exists 68, (L :: ptr :: flag :: b).
    assert (Hz : zlen (68 :: L :: ptr :: flag :: b) = L) by (unfold zlen in *; cbn [length]; lia).
    repeat split; auto.
    + repeat (apply wfb_cons; split; [lia|]). auto.
    + cbn; auto 10.
    + intros t. unfold opt_from_bytes. change (4 =? 0) with false. change (4 =? 1) with false.
      change ((4 =? 3) || (4 =? 7) || (4 =? 9)) with false. change (4 =? 4) with true. cbn iota.
      cbn [app firstn]. rewrite unpack_bbbb by (repeat constructor; lia). cbn [bindr].
      change 0x0f with (2 ^ 4 - 1). rewrite land_ones_mod by lia. change (2 ^ 4) with 16. rewrite Z.mod_small by lia.
      replace (zlen (68 :: L :: ptr :: flag :: b ++ t) <? L) with false.
      2:{ change (68 :: L :: ptr :: flag :: b ++ t) with ((68 :: L :: ptr :: flag :: b) ++ t).
          rewrite zlen_app, Hz. pose proof (zlen_nonneg t). lia. }
      replace (firstn (Z.to_nat L) (68 :: L :: ptr :: flag :: b ++ t)) with (68 :: L :: ptr :: flag :: b).
      2:{ change (68 :: L :: ptr :: flag :: b ++ t) with ((68 :: L :: ptr :: flag :: b) ++ t).
          rewrite firstn_app_exact; auto. unfold zlen in Hz. lia. }
      cbn [skipn]. rewrite Pb. cbn [bindr]. rewrite Hz. reflexivity.
  - destruct H as (Hn & Hv). cbn [opt_to_bytes opt_length opt_num].
    assert (Hx : exists x, Z.lor copy num = x /\ 0 <= x < 256 /\ Z.land x 0x1f = num /\ In num IPOptionNumbers /\
       copy = if num =? 20 then 0x80 else 0).
    { destruct Hn as [[-> ->]|[[-> | ->] ->]]; eexists; repeat split; cbn; auto 20; lia. }
    destruct Hx as (x & Ex & Rx & Lx & Ix & Ec). rewrite Ex.
    assert (Hpk : pack [fB; fB; fH] [VI x; VI 4; VI value] = Ok [x; 4; value / 256; value mod 256]).
    { cbn [pack]. pow256. replace ((0 <=? x) && (x <? 256)) with true by lia.
      replace ((0 <=? value) && (value <? 65536)) with true by lia. cbn [bindr Z.leb Z.ltb Z.compare andb].
      rewrite !be1, be2 by lia. reflexivity. }
    exists x, [4; value / 256; value mod 256]. split; [exact Hpk|]. split; [reflexivity|].
    split; [repeat (apply wfb_cons; split; [lia|]); auto with wfb|]. split; [auto|]. split; [auto|].
    intros t. unfold opt_from_bytes.
    replace (num =? 0) with false by lia. replace (num =? 1) with false by lia.
    replace ((num =? 3) || (num =? 7) || (num =? 9)) with false by lia. replace (num =? 4) with false by lia.
    replace ((num =? 11) || (num =? 12) || (num =? 20)) with true by lia.
    cbn [app firstn]. rewrite (unpack_pack _ _ _ Hpk). cbn [norm bindr]. rewrite <- Ec. reflexivity.
Qed.

Lemma opts_concat_ok os : Forall wf_opt os -> exists b, opts_concat os = Ok b /\ wfb b /\
  (length os <= length b)%nat /\
  forall fuel t, opts_from_bytes (length os + fuel) (b ++ t) = (rest <- opts_from_bytes fuel t;; Ok (os ++ rest)).
Proof. induction os as [|o os IH]; intros Hf.
  - exists []. repeat split; auto with wfb. intros. cbn [length plus app]. destruct (opts_from_bytes fuel t); reflexivity.
  - apply Forall_cons_iff in Hf as [Ho Hf]. destruct (IH Hf) as (b & Hb & Wb & Lb & Pb).
    destruct (opt_parse o Ho) as (x & bo & Hbo & Lbo & Wbo & Hn & Hi & Po).
    exists ((x :: bo) ++ b). cbn [opts_concat]. rewrite Hbo, Hb. cbn [bindr]. split; [reflexivity|].
    split; [apply wfb_app; auto|]. split; [rewrite app_length; cbn [length]; lia|].
    intros fuel t. cbn [length plus opts_from_bytes app]. rewrite Hn.
    rewrite (enum_in _ _ Hi). cbn [bindr]. rewrite <- app_assoc. rewrite Po. cbn [bindr].
    replace (skipn (Z.to_nat (zlen (x :: bo))) (x :: bo ++ b ++ t)) with (b ++ t).
    2:{ change (x :: bo ++ b ++ t) with ((x :: bo) ++ b ++ t). rewrite skipn_app_exact; auto. unfold zlen. lia. }
    rewrite Pb. destruct (opts_from_bytes fuel t); reflexivity. Qed.

Lemma opts_from_step fuel x raw num o eaten :
  enum_of IPOptionNumbers (Z.land x 31) = Ok num -> opt_from_bytes num (x :: raw) = Ok (o, eaten) ->
  opts_from_bytes (S fuel) (x :: raw) = (rest <- opts_from_bytes fuel (skipn (Z.to_nat eaten) (x :: raw));; Ok (o :: rest)).
Proof. intros E1 E2. cbn [opts_from_bytes]. rewrite E1. cbn [bindr]. rewrite E2. reflexivity. Qed.

Lemma opts_padding k : opts_from_bytes (S k) (repeat 0 k) = Ok (repeat OEnd k).
Proof. induction k as [|k IH]; [reflexivity|]. cbn [repeat].
  rewrite (opts_from_step (S k) 0 (repeat 0 k) 0 OEnd 1) by reflexivity.
  change (skipn (Z.to_nat 1) (0 :: repeat 0 k)) with (repeat 0 k).
  rewrite IH. reflexivity. Qed.

Lemma opts_fuel_mono fuel : forall fuel' raw r, opts_from_bytes fuel raw = r -> r <> Err EFuel ->
  (fuel <= fuel')%nat -> opts_from_bytes fuel' raw = r.
Proof. induction fuel as [|fuel IH]; intros fuel' raw r H Hn Hle; [cbn in H; congruence|].
  destruct fuel' as [|fuel']; [lia|]. cbn [opts_from_bytes] in *.
  destruct raw as [|x raw]; auto. destruct (enum_of IPOptionNumbers (Z.land x 31)) as [num|]; auto. cbn [bindr] in *.
  destruct (opt_from_bytes num (x :: raw)) as [[o eaten]|]; auto. cbn [bindr] in *.
  destruct (opts_from_bytes fuel (skipn (Z.to_nat eaten) (x :: raw))) as [rest|e] eqn:E; cbn [bindr] in H.
  - erewrite IH; [|exact E|congruence|lia]. exact H.
  - erewrite IH; [|exact E| |lia]; [exact H|]. intros [= ->]. cbn in H. congruence. Qed.

(** Number of padding bytes appended (1 to 4). *)
Definition padlen (n : nat) : nat := (4 - n mod 4)%nat.

Theorem opts_round_trip os : os <> [] -> Forall wf_opt os ->
  exists body, opts_concat os = Ok body /\ wfb body /\
  let pad := padlen (length body) in
  (1 <= pad <= 4)%nat /\
  opts_to_bytes os = Ok (body ++ repeat 0%Z pad) /\
  (length (body ++ repeat 0%Z pad) mod 4 = 0)%nat /\
  forall fuel, (length (body ++ repeat 0%Z pad) < fuel)%nat ->
    opts_from_bytes fuel (body ++ repeat 0%Z pad) = Ok (os ++ repeat OEnd pad).
Proof. intros Hne Hf. destruct (opts_concat_ok os Hf) as (b & Hb & Wb & Lb & Pb).
  exists b. split; auto. split; auto. cbv zeta.
  assert (Hpad : (1 <= padlen (length b) <= 4)%nat).
  { unfold padlen. pose proof (Nat.mod_upper_bound (length b) 4 ltac:(lia)). lia. }
  split; auto. split; [|split].
  - destruct os; [congruence|]. unfold opts_to_bytes. rewrite Hb. reflexivity.
  - rewrite app_length, repeat_length. unfold padlen.
    pose proof (Nat.mod_upper_bound (length b) 4 ltac:(lia)).
    pose proof (Nat.div_mod (length b) 4 ltac:(lia)).
    replace (length b + (4 - length b mod 4))%nat with ((1 + length b / 4) * 4)%nat by lia.
    apply Nat.mod_mul. lia.
  - intros fuel Hfu. rewrite app_length, repeat_length in Hfu.
    eapply opts_fuel_mono with (fuel := (length os + S (padlen (length b)))%nat); [|discriminate|lia].
    rewrite Pb, opts_padding. reflexivity. Qed.

Corollary opts_len_mult os b : Forall wf_opt os -> opts_to_bytes os = Ok b -> (length b mod 4 = 0)%nat /\ wfb b /\
  exists k, (k <= 4)%nat /\ forall fuel, (length b < fuel)%nat -> opts_from_bytes fuel b = Ok (os ++ repeat OEnd k).
Proof. intros Hf Hb. destruct os as [|o os].
  - cbn in Hb. injection Hb as <-. repeat split; auto with wfb. exists O. split; [lia|]. intros [|fuel] Hl; [cbn in Hl; lia|reflexivity].
  - destruct (opts_round_trip (o :: os) ltac:(congruence) Hf) as (body & H1 & H2 & H3 & H4 & H5 & H6).
    rewrite H4 in Hb. injection Hb as <-. split; auto. split; [apply wfb_app; auto with wfb|].
    exists (padlen (length body)). split; [lia|]. exact H6. Qed.

(** ** Termination of the option loop *)
Lemma opt_eaten num raw o eaten : wfb raw -> opt_from_bytes num raw = Ok (o, eaten) ->
  0 <= eaten /\ (eaten = 0 -> exists ty r, raw = ty :: 0 :: r /\ num = 4).
Proof. intros Hw H. unfold opt_from_bytes in H.
  destruct (num =? 0); [inversion H; subst; lia|]. destruct (num =? 1); [inversion H; subst; lia|].
  destruct ((num =? 3) || (num =? 7) || (num =? 9)).
  { destruct raw as [|ty [|len [|ptr r]]]; try discriminate. unfold getb in H. cbn [nth_error bindr] in H.
    destruct (route_addrs _ _ _) as [addrs|] eqn:Ea; [|discriminate]. cbn [bindr] in H.
    destruct (route_ptr_ok ptr (zlen addrs)) eqn:Ep; [|discriminate].
    inversion H; subst. apply wfb_cons in Hw as [? Hw]. apply wfb_cons in Hw as [? Hw].
    split; [lia|]. intros ->. change (Z.to_nat ((0 - 3) / 4)) with O in Ea. cbn in Ea. inversion Ea; subst.
    unfold route_ptr_ok in Ep. cbn in Ep. lia. }
  destruct (Z.eqb_spec num 4) as [->|Hn].
  { destruct raw as [|a [|b [|c [|d r]]]]; try discriminate. cbn [firstn] in H.
    repeat (apply wfb_cons in Hw as [? Hw]).
    rewrite unpack_bbbb in H by (repeat constructor; lia). cbn [bindr] in H.
    destruct (_ <? _); [discriminate|].
    match type of H with context [ts_parse ?x ?y] => destruct (ts_parse x y) end; [|discriminate].
    cbn [bindr] in H. inversion H; subst. split; [lia|]. intros ->. eauto. }
  destruct ((num =? 11) || (num =? 12) || (num =? 20)); [|discriminate].
  destruct (unpack _ _) as [[|[z|x] [|[z'|x'] [|[z''|x''] [|]]]]|]; try discriminate.
  cbn in H. inversion H; subst. lia. Qed.

(** Either the loop ends within one step per byte, with a result independent of the fuel, or it never ends. *)
Theorem opts_dichotomy : forall raw, wfb raw ->
  (exists r, r <> Err EFuel /\ forall fuel, (length raw < fuel)%nat -> opts_from_bytes fuel raw = r) \/
  ((forall fuel, opts_from_bytes fuel raw = Err EFuel) /\
   exists p ty r, raw = p ++ ty :: 0 :: r /\ Z.land ty 0x1f = 4).
Proof. intros raw. remember (length raw) as n eqn:Hn. revert raw Hn.
  induction n as [n IH] using (well_founded_induction lt_wf). intros raw Hn Hw.
  destruct raw as [|x raw].
  { left. exists (Ok []). split; [discriminate|]. intros [|fuel] H; [lia|reflexivity]. }
  destruct (enum_of IPOptionNumbers (Z.land x 31)) as [num|e] eqn:E1.
  2:{ left. exists (Err EValue). split; [discriminate|]. intros [|fuel] H; [lia|]. cbn [opts_from_bytes]. rewrite E1.
      unfold enum_of in E1. destruct (zmem _ _); [discriminate|]. inversion E1. reflexivity. }
  destruct (opt_from_bytes num (x :: raw)) as [[o eaten]|e] eqn:E2.
  2:{ assert (He : e <> EFuel).
      { intros ->. clear IH. revert E2. unfold opt_from_bytes, getb.
        destruct (num =? 0); [discriminate|]. destruct (num =? 1); [discriminate|].
        destruct ((num =? 3) || (num =? 7) || (num =? 9)).
        { destruct raw as [|len [|ptr raw]]; cbn [nth_error bindr]; try discriminate.
          assert (Hra : forall k i r, route_addrs k i r <> Err EFuel).
          { induction k as [|k IHk]; intros i r; cbn [route_addrs]; [discriminate|].
            unfold ip4_of_bytes. destruct (Nat.eqb _ _); cbn [bindr]; [|discriminate].
            specialize (IHk (S i) r). destruct (route_addrs k (S i) r) as [|e0]; cbn [bindr]; [discriminate|].
            intros [= ->]; auto. }
          destruct (route_addrs _ _ _) as [|e0] eqn:Er; cbn [bindr].
          - destruct (route_ptr_ok _ _); discriminate.
          - intros [= ->]. apply (Hra _ _ _ Er). }
        destruct (num =? 4).
        { destruct (unpack _ _) as [vs|e0] eqn:Eu; [|apply unpack_err in Eu; subst; discriminate].
          cbn [bindr]. destruct vs as [|[z|b] [|[z0|b0] [|[z1|b1] [|[z2|b2] [|]]]]]; try discriminate.
          destruct (_ <? _); [discriminate|].
          assert (Hts : forall h k r, (length r <= k)%nat -> ts_parse h r <> Err EFuel).
          { intros h. induction k as [|k IHk]; intros r Hr; destruct r as [|a [|b [|c [|d r]]]]; try discriminate; [cbn in Hr; lia|].
            cbn [ts_parse]. destruct h.
            - destruct r as [|a' [|b' [|c' [|d' r]]]]; try discriminate.
              specialize (IHk r ltac:(cbn in Hr; lia)). destruct (ts_parse true r) as [|e0]; cbn [bindr]; [discriminate|].
              intros [= ->]; auto.
            - specialize (IHk r ltac:(cbn in Hr; lia)). destruct (ts_parse false r) as [|e0]; cbn [bindr]; [discriminate|].
              intros [= ->]; auto. }
          match goal with |- context [ts_parse ?h ?r] => pose proof (Hts h _ r (le_n _)); destruct (ts_parse h r) as [|e0] end; cbn [bindr]; [discriminate|].
          intros [= ->]; auto. }
        destruct ((num =? 11) || (num =? 12) || (num =? 20)); [|discriminate].
        destruct (unpack _ _) as [vs|e0] eqn:Eu; [|apply unpack_err in Eu; subst; discriminate].
        cbn [bindr]. destruct vs as [|[z|b] [|[z0|b0] [|[z1|b1] [|]]]]; discriminate. }
      left. exists (Err e). split; [congruence|]. intros [|fuel] H; [lia|]. cbn [opts_from_bytes]. rewrite E1. cbn [bindr].
      rewrite E2. reflexivity. }
  destruct (opt_eaten num (x :: raw) o eaten Hw E2) as [He0 Hez].
  destruct (Z.eq_dec eaten 0) as [Hz|Hnz].
  - right. subst eaten. destruct (Hez eq_refl) as (ty & r & Er & ->). split.
    + induction fuel as [|fuel IHf]; [reflexivity|]. rewrite (opts_from_step fuel x raw 4 o 0 E1 E2).
      change (skipn (Z.to_nat 0) (x :: raw)) with (x :: raw). rewrite IHf. reflexivity.
    + exists [], ty, r. split; [exact Er|]. apply enum_of_ok in E1 as [E1 _]. congruence.
  - assert (Hlt : (length (skipn (Z.to_nat eaten) (x :: raw)) < n)%nat).
    { rewrite skipn_length, Hn. cbn [length]. lia. }
    destruct (IH _ Hlt (skipn (Z.to_nat eaten) (x :: raw)) eq_refl (wfb_skipn _ _ Hw)) as [(r & Hr & Hf)|(Hf & p & ty & r & Er & Ht)].
    + left. exists (rest <- r;; Ok (o :: rest)). split.
      * destruct r as [|e]; cbn; [discriminate|]. intros [= ->]; auto.
      * intros [|fuel] Hfu; [lia|]. rewrite (opts_from_step fuel x raw num o eaten E1 E2).
        rewrite Hf by lia. reflexivity.
    + right. split.
      * intros [|fuel]; [reflexivity|]. rewrite (opts_from_step fuel x raw num o eaten E1 E2). rewrite Hf. reflexivity.
      * exists (firstn (Z.to_nat eaten) (x :: raw) ++ p), ty, r. split; auto.
        rewrite <- app_assoc, <- Er, firstn_skipn. reflexivity. Qed.

(** ** The fixed header *)
Definition wf_ip (h : ipv4) : Prop :=
  0 <= ip_tos h < 256 /\ 0 <= ip_totlen h < 65536 /\ 0 <= ip_ttl h < 256 /\ 0 <= ip_id h < 65536 /\
  In (ip_flags h) IPFragmentFlags /\ 0 <= ip_frag h < 8192 /\ In (ip_proto h) IPProtocols /\
  ip4 (ip_src h) /\ ip4 (ip_dst h) /\ Forall wf_opt (ip_opts h).

Lemma flag_range z : In z IPFragmentFlags -> 0 <= z <= 4.
Proof. intros H. apply (enum_forall IPFragmentFlags (fun z => (0 <=? z) && (z <=? 4)) eq_refl) in H. lia. Qed.

Lemma lor64 x : 0 <= x < 16 -> Z.lor (Z.shiftl 4 4) x = 64 + x.
Proof. intros. rewrite lor_add_disjoint by (change (2 ^ 4) with 16; lia). reflexivity. Qed.

Lemma opts_to_bytes_ok os : Forall wf_opt os -> exists b, opts_to_bytes os = Ok b.
Proof. intros H. destruct os as [|o os]; [exists []; reflexivity|].
  destruct (opts_round_trip (o :: os) ltac:(congruence) H) as (body & _ & _ & _ & -> & _). eauto. Qed.

(** The twelve bytes before the addresses, with checksum field [c1; c2]. *)
Definition ip_front (h : ipv4) (hl : Z) : bytes :=
  [64 + hl; ip_tos h; ip_totlen h / 256; ip_totlen h mod 256; ip_id h / 256; ip_id h mod 256;
   32 * ip_flags h + ip_frag h / 256; ip_frag h mod 256; ip_ttl h; ip_proto h].

Lemma ip_pack h hl c : wf_ip h -> 0 <= hl < 16 -> 0 <= c < 65536 ->
  pack ip_fmt [VI (64 + hl); VI (ip_tos h); VI (ip_totlen h); VI (ip_id h);
               VI (Z.lor (Z.shiftl (ip_flags h) 13) (ip_frag h)); VI (ip_ttl h);
               VI (ip_proto h); VI c; VB (ip_src h); VB (ip_dst h)]
  = Ok (ip_front h hl ++ be 2 c ++ ip_src h ++ ip_dst h).
Proof. intros (H1 & H2 & H3 & H4 & H5 & H6 & H7 & (W8 & L8) & (W9 & L9) & _) Hhl Hc.
  apply flag_range in H5. apply proto_range in H7.
  rewrite lor_add_disjoint by (change (2 ^ 13) with 8192; lia). change (2 ^ 13) with 8192.
  unfold ip_fmt. cbn [pack]. pow256.
  replace ((0 <=? 64 + hl) && (64 + hl <? 256)) with true by lia.
  replace ((0 <=? ip_tos h) && (ip_tos h <? 256)) with true by lia.
  replace ((0 <=? ip_totlen h) && (ip_totlen h <? 65536)) with true by lia.
  replace ((0 <=? ip_id h) && (ip_id h <? 65536)) with true by lia.
  replace ((0 <=? ip_flags h * 8192 + ip_frag h) && (ip_flags h * 8192 + ip_frag h <? 65536)) with true by lia.
  replace ((0 <=? ip_ttl h) && (ip_ttl h <? 256)) with true by lia.
  replace ((0 <=? ip_proto h) && (ip_proto h <? 256)) with true by lia.
  replace ((0 <=? c) && (c <? 65536)) with true by lia. cbn [bindr].
  rewrite !be1 by lia. rewrite !fits_exact, app_nil_r by auto.
  rewrite (be2 (ip_totlen h)), (be2 (ip_id h)), (be2 (ip_flags h * 8192 + ip_frag h)) by lia.
  unfold ip_front. cbn [app].
  replace ((ip_flags h * 8192 + ip_frag h) / 256) with (32 * ip_flags h + ip_frag h / 256) by lia.
  replace ((ip_flags h * 8192 + ip_frag h) mod 256) with (ip_frag h mod 256) by lia. reflexivity. Qed.

Lemma ip_front_wfb h hl : wf_ip h -> 0 <= hl < 16 -> wfb (ip_front h hl).
Proof. intros (H1 & H2 & H3 & H4 & H5 & H6 & H7 & _) Hhl. apply flag_range in H5. apply proto_range in H7.
  unfold ip_front. repeat constructor; lia. Qed.

Lemma checksum_not_ffff x data : wfb (x :: data) -> 0 < x -> zlen (x :: data) <= 131072 -> cksum (x :: data) < 65535.
Proof. intros Hw Hx Hl. unfold cksum. rewrite checksum_rfc1071 by auto. unfold rfc1071.
  pose proof (oc_sum_repr _ (be_words_wf _ Hw)) as (H1 & _ & H3).
  assert (Hz : 0 < zsum (be_words (x :: data))).
  { pose proof (be_words_wf _ Hw) as Hf. destruct data as [|y r].
    - cbn [be_words zsum fold_right]. lia.
    - cbn [be_words] in *. apply Forall_cons_iff in Hf as [_ Hf]. pose proof (zsum_nonneg _ Hf).
      apply wfb_cons in Hw as [_ Hw]. apply wfb_cons in Hw as [? _].
      change (zsum (256 * x + y :: be_words r)) with (256 * x + y + zsum (be_words r)). lia. }
  lia. Qed.

(** Serialising: layout and checksum. *)
Theorem ip_serialise h ob : wf_ip h -> opts_to_bytes (ip_opts h) = Ok ob -> zlen ob <= 40 ->
  let hl := 5 + zlen ob / 4 in
  exists c, 0 <= c < 65535 /\ ip_checksum h = Ok c /\
  ip_to_bytes h = Ok (ip_front h hl ++ be 2 c ++ ip_src h ++ ip_dst h ++ ob) /\
  verifies (ip_front h hl ++ be 2 c ++ ip_src h ++ ip_dst h ++ ob) /\
  wfb (ip_front h hl ++ be 2 c ++ ip_src h ++ ip_dst h ++ ob) /\ zlen ob mod 4 = 0.
Proof. intros Hwf Hob Hlen. pose proof Hwf as (H1 & H2 & H3 & H4 & H5 & H6 & H7 & (W8 & L8) & (W9 & L9) & Ho).
  destruct (opts_len_mult _ _ Ho Hob) as (Hmod & Wob & _).
  assert (Hm4 : zlen ob mod 4 = 0). { unfold zlen. lia. }
  pose proof (zlen_nonneg ob) as Hge.
  cbv zeta. set (hl := 5 + zlen ob / 4).
  assert (Rhl : 0 <= hl < 16) by (unfold hl; lia).
  assert (Ehl : (20 + zlen ob) / 4 = hl) by (unfold hl; lia).
  assert (Hc0 : ip_checksum h = Ok (cksum ((ip_front h hl ++ [0; 0] ++ ip_src h ++ ip_dst h) ++ ob))).
  { unfold ip_checksum, ip_size. rewrite Hob. cbn [bindr]. rewrite Ehl. change (Z.shiftl 4 4) with 64.
    rewrite (ip_pack h hl 0) by (auto; lia). reflexivity. }
  set (tail := ip_src h ++ ip_dst h ++ ob).
  assert (Wt : wfb tail) by (unfold tail; apply wfb_app; split; auto; apply wfb_app; auto).
  pose proof (ip_front_wfb h hl Hwf Rhl) as Wf.
  assert (Hz : zlen (ip_front h hl ++ [0; 0] ++ tail) <= 131072).
  { unfold tail. rewrite !zlen_app. unfold zlen. rewrite L8, L9. cbn [ip_front length]. unfold zlen in Hlen. lia. }
  destruct (stored_checksum_ok true (ip_front h hl) tail Wf Wt eq_refl Hz) as (Rc & Hv & _).
  assert (Hlt : cksum (ip_front h hl ++ [0; 0] ++ tail) < 65535).
  { unfold ip_front in *. cbn [app] in *. apply checksum_not_ffff; auto; [|lia].
    apply (wfb_app (ip_front h hl)). split; auto. apply (wfb_app [0; 0]); split; auto. repeat constructor; lia. }
  exists (cksum (ip_front h hl ++ [0; 0] ++ tail)). split; [unfold cksum in *; lia|].
  assert (Ec : (ip_front h hl ++ [0; 0] ++ ip_src h ++ ip_dst h) ++ ob = ip_front h hl ++ [0; 0] ++ tail).
  { unfold tail. rewrite <- !app_assoc. reflexivity. }
  rewrite Ec in Hc0. split; [exact Hc0|]. split; [|split; [exact Hv|split; [|exact Hm4]]].
  - unfold ip_to_bytes, ip_size. rewrite Hob. cbn [bindr]. rewrite Hc0. cbn [bindr]. rewrite Ehl, lor64 by auto.
    rewrite ip_pack by (auto; unfold cksum; lia). cbn [bindr]. unfold tail. rewrite <- !app_assoc. reflexivity.
  - apply wfb_app; split; auto. apply wfb_app; split; auto with wfb. Qed.

Lemma shiftr4 x : 0 <= x < 16 -> Z.shiftr (64 + x) 4 = 4.
Proof. intros. rewrite Z.shiftr_div_pow2 by lia. change (2 ^ 4) with 16. lia. Qed.
Lemma land15 x : 0 <= x < 16 -> Z.land (64 + x) 15 = x.
Proof. intros. change 15 with (2 ^ 4 - 1). rewrite land_ones_mod by lia. change (2 ^ 4) with 16. lia. Qed.

Theorem ip_parse h ob b t : wf_ip h -> opts_to_bytes (ip_opts h) = Ok ob -> zlen ob <= 40 -> ip_to_bytes h = Ok b ->
  exists os', (exists k, (k <= 4)%nat /\ (ip_opts h = [] -> k = O) /\ os' = ip_opts h ++ repeat OEnd k) /\
  ip_from_bytes (b ++ t) =
    Ok (mkIp4 (ip_tos h) (ip_totlen h) (ip_ttl h) (ip_id h) (ip_flags h) (ip_frag h) (ip_proto h) (ip_src h) (ip_dst h) os', t).
Proof. intros Hwf Hob Hlen Hb. pose proof Hwf as (H1 & H2 & H3 & H4 & H5 & H6 & H7 & (W8 & L8) & (W9 & L9) & Ho).
  destruct (ip_serialise h ob Hwf Hob Hlen) as (c & Rc & _ & Hb' & _ & _ & Hm4).
  rewrite Hb in Hb'. apply ok_inj in Hb'.
  set (hl := 5 + zlen ob / 4) in *. pose proof (zlen_nonneg ob) as Hge.
  assert (Rhl : 5 <= hl < 16) by (unfold hl; lia).
  assert (Eob : zlen ob = 4 * hl - 20) by (unfold hl; lia).
  assert (Hpk := ip_pack h hl c Hwf ltac:(lia) ltac:(lia)).
  set (iphdr := ip_front h hl ++ be 2 c ++ ip_src h ++ ip_dst h) in *.
  assert (Eb : b = iphdr ++ ob) by (rewrite Hb'; unfold iphdr; rewrite <- !app_assoc; reflexivity).
  assert (Lh : length iphdr = 20%nat) by (apply (pack_length _ _ _ Hpk)).
  destruct (take_pack ip_fmt _ iphdr (ob ++ t) 20 eq_refl Hpk) as (E1 & E2 & E3).
  assert (Eopt : exists os' k, (k <= 4)%nat /\ (ip_opts h = [] -> k = O) /\ os' = ip_opts h ++ repeat OEnd k /\
     opts_from_bytes (S (length ob)) ob = Ok os').
  { destruct (ip_opts h) as [|o os] eqn:Eo.
    - cbn in Hob. injection Hob as <-. exists [], O. repeat split; auto.
    - destruct (opts_round_trip (o :: os) ltac:(congruence) ltac:(auto)) as (body & _ & _ & Hp & Hb2 & _ & Hf).
      rewrite Hb2 in Hob. apply ok_inj in Hob. rewrite Hob in *.
      do 2 eexists. split; [apply Hp|]. split; [discriminate|]. split; [reflexivity|]. apply Hf. lia. }
  destruct Eopt as (os' & k & Hk & Hk0 & Eos & Hos).
  exists os'. split; [exists k; auto|].
  rewrite Eb, <- app_assoc. unfold ip_from_bytes. rewrite E1, E2. cbn [norm ip_fmt bindr].
  rewrite !fits_exact by auto. rewrite shiftr4, land15 by lia. cbn [negb Z.eqb Pos.eqb].
  replace (zlen (iphdr ++ ob ++ t) <? hl * 4) with false.
  2:{ rewrite !zlen_app. pose proof (zlen_nonneg t). unfold zlen at 1. rewrite Lh. lia. }
  replace (skipn 20 (firstn (Z.to_nat (hl * 4)) (iphdr ++ ob ++ t))) with ob.
  2:{ rewrite app_assoc, firstn_app_exact. 2:{ rewrite app_length, Lh. unfold zlen in Eob. lia. }
      rewrite skipn_app_exact; auto. }
  rewrite Hos.
  replace (skipn (Z.to_nat (hl * 4)) (iphdr ++ ob ++ t)) with t.
  2:{ rewrite app_assoc, skipn_app_exact; auto. rewrite app_length, Lh. unfold zlen in Eob. lia. }
  apply flag_range in H5 as Hfl.
  unfold ip_set_tos. replace ((0 <=? ip_tos h) && (ip_tos h <? 256)) with true by lia. cbn [bindr ip_tos ip_totlen ip_ttl ip_id ip_flags ip_frag ip_proto ip_src ip_dst ip_opts].
  unfold ip_set_id. replace ((0 <=? ip_id h) && (ip_id h <? 65536)) with true by lia. cbn [bindr ip_tos ip_totlen ip_ttl ip_id ip_flags ip_frag ip_proto ip_src ip_dst ip_opts].
  rewrite (shiftr_lor_low _ _ 13) by (change (2 ^ 13) with 8192; lia).
  change 0x1fff with (2 ^ 13 - 1). rewrite (land_lor_low _ _ 13) by (change (2 ^ 13) with 8192; lia).
  unfold ip_set_flags. rewrite enum_in by auto. cbn [bindr ip_tos ip_totlen ip_ttl ip_id ip_flags ip_frag ip_proto ip_src ip_dst ip_opts].
  unfold ip_set_frag. change (2 ^ 13) with 8192. replace ((0 <=? ip_frag h) && (ip_frag h <? 8192)) with true by lia. cbn [bindr ip_tos ip_totlen ip_ttl ip_id ip_flags ip_frag ip_proto ip_src ip_dst ip_opts].
  unfold ip_set_ttl. replace ((0 <=? ip_ttl h) && (ip_ttl h <=? 255)) with true by lia. cbn [bindr ip_tos ip_totlen ip_ttl ip_id ip_flags ip_frag ip_proto ip_src ip_dst ip_opts].
  unfold ip_set_proto. rewrite enum_in by auto. cbn [bindr ip_tos ip_totlen ip_ttl ip_id ip_flags ip_frag ip_proto ip_src ip_dst ip_opts].
  rewrite (ip_of_bytes4 (ip_src h) L8), (ip_of_bytes4 (ip_dst h) L9). reflexivity. Qed.

Lemma ip_short raw : (length raw < 20)%nat -> ip_from_bytes raw = Err ENotEnough.
Proof. intros H. unfold ip_from_bytes. replace (Nat.ltb (length raw) 20) with true; auto.
  symmetry. apply Nat.ltb_lt. exact H. Qed.
