(** Parsing ICMP messages and writing them again; the option loop of ICMPv6. *)
From Verif Require Import BaseLemmas CodecLemmas EthAddrModel EthAddrSpec EthAddrProofs Enums ArpModel EthProofs
  ChecksumModel ChecksumSpec ChecksumProofs Ipv4Model Ipv4Proofs Ipv4Proofs2 Ipv6Model Ipv6Proofs IcmpModel IcmpProofs IcmpCodecProofs.

(** Bytes RFC 792 calls unused and the code does not keep. *)
Definition reserved_zero (t : Z) (body : bytes) : Prop :=
  (t = 4 -> firstn 4 body = [0; 0; 0; 0]) /\
  (t = 3 -> nth 0 body 0 = 0) /\
  (t = 11 -> nth 0 body 0 = 0 /\ nth 2 body 0 = 0 /\ nth 3 body 0 = 0).

Lemma be2_bytes c d : 0 <= c < 256 -> 0 <= d < 256 -> be 2 (256 * c + d) = [c; d].
Proof. intros. rewrite be2 by lia. f_equal; [|f_equal]; lia. Qed.
Lemma unpack_H2 a b c d : wfb [a; b; c; d] -> unpack [fH; fH] [a; b; c; d] = Ok [VI (256 * a + b); VI (256 * c + d)].
Proof. intros H. rewrite !wfb_cons in H. destruct H as (Ha & Hb & Hc & Hd & _).
  assert (P : pack [fH; fH] [VI (256 * a + b); VI (256 * c + d)] = Ok [a; b; c; d]).
  { rewrite !pack_cons_int by (pow256; lia). cbn [pack bindr]. rewrite !be2_bytes by lia. reflexivity. }
  exact (unpack_pack _ _ _ P). Qed.
Lemma unpack_XBH a b c d : wfb [a; b; c; d] -> unpack [FX 1; fB; fH] [a; b; c; d] = Ok [VI b; VI (256 * c + d)].
Proof. intros H. rewrite !wfb_cons in H. destruct H as (Ha & Hb & Hc & Hd & _).
  change (unpack [FX 1; fB; fH] [a; b; c; d]) with (unpack [fB; fH] [b; c; d]).
  assert (P : pack [fB; fH] [VI b; VI (256 * c + d)] = Ok [b; c; d]).
  { rewrite !pack_cons_int by (pow256; lia). cbn [pack bindr]. rewrite be1, !be2_bytes by lia. reflexivity. }
  exact (unpack_pack _ _ _ P). Qed.

Lemma ltb_len4 {A} (raw : list A) : Nat.ltb (length raw) 4 = false -> exists a b c d r, raw = a :: b :: c :: d :: r.
Proof. intros H. destruct raw as [|a [|b [|c [|d r]]]]; cbn in H; try discriminate. eauto 10. Qed.

Lemma wfb4 a b c d r : wfb (a :: b :: c :: d :: r) -> wfb [a; b; c; d] /\ wfb r.
Proof. intros H. change (a :: b :: c :: d :: r) with ([a; b; c; d] ++ r) in H. apply wfb_app in H. exact H. Qed.

Lemma data_parse_inv t raw d : wfb raw -> In t ICMPTypes -> data_from_bytes (K4 t) raw = Ok d ->
  wf_data d /\ kind4 t d /\ received t d = d /\
  (reserved_zero t raw -> (t <> 17 /\ t <> 18 -> data_layout d = raw) /\ (t = 17 \/ t = 18 -> data_layout d = firstn 8 raw)).
Proof. intros Hw Ht H.
  assert (Plain : In t [9; 10; 12; 13; 14; 15; 16] \/ In t [0; 3; 4; 5; 8; 11; 17; 18]) by (cbn in *; lia).
  destruct Plain as [Hp|Hp].
  { assert (E : d = DPlain (K4 t) raw) by (in_cases Hp; vm_compute in H; injection H as <-; reflexivity).
    subst d. cbn [wf_data kind4 received data_layout]. split; auto. split; auto. split; auto. intros _. split; auto.
    intros [-> | ->]; cbn in Hp; lia. }
  assert (L4 : Nat.ltb (length raw) 4 = false).
  { destruct (Nat.ltb (length raw) 4) eqn:E; auto. exfalso. in_cases Hp; unfold data_from_bytes in H; cbn [data_new Z.eqb Pos.eqb] in H; rewrite E in H; discriminate. }
  pose proof L4 as L4'. apply ltb_len4 in L4' as (a & b & c & e & r & ->). destruct (wfb4 _ _ _ _ _ Hw) as (W4 & Wr).
  pose proof (unpack_H2 _ _ _ _ W4) as U1. pose proof (unpack_XBH _ _ _ _ W4) as U2.
  rewrite !wfb_cons in W4. destruct W4 as (Ha & Hb & Hc & He & _).
  unfold data_from_bytes in H. unfold u16, reserved_zero.
  in_cases Hp; cbn [data_new Z.eqb Pos.eqb] in H; rewrite L4 in H; cbn iota in H;
  change (firstn 4 (a :: b :: c :: e :: r)) with [a; b; c; e] in H; change (skipn 4 (a :: b :: c :: e :: r)) with r in H;
  rewrite ?U1, ?U2 in H; cbn [bindr] in H.
  - apply ok_inj in H. subst d. cbn [wf_data kind4 received data_layout Z.eqb]. unfold u16. repeat split; auto; try lia.
    intros _. rewrite !be2_bytes by lia. reflexivity.
  - apply ok_inj in H. subst d. cbn [wf_data kind4 received data_layout Z.eqb]. unfold u16. repeat split; auto; try lia.
    intros _. destruct H as (_ & H & _). specialize (H eq_refl). cbn [nth] in H. subst a. rewrite !be2_bytes by lia. reflexivity.
  - apply ok_inj in H. subst d. cbn [wf_data kind4 received data_layout Z.eqb]. unfold u16. repeat split; auto; try lia.
    intros _. destruct H as (H & _ & _). specialize (H eq_refl). cbn [firstn] in H. injection H as -> -> -> ->. reflexivity.
  - apply ok_inj in H. subst d. cbn [wf_data kind4 received data_layout Z.eqb]. unfold u16. repeat split; auto; try lia.
    repeat constructor; lia.
  - apply ok_inj in H. subst d. cbn [wf_data kind4 received data_layout Z.eqb]. unfold u16. repeat split; auto; try lia.
    intros _. rewrite !be2_bytes by lia. reflexivity.
  - apply ok_inj in H. subst d. cbn [wf_data kind4 received data_layout Z.eqb]. unfold u16. repeat split; auto; try lia.
    intros _. destruct H as (_ & _ & H). specialize (H eq_refl). cbn [nth] in H. destruct H as (-> & -> & ->). reflexivity.
  - destruct (Nat.eqb (length (firstn 4 r)) 4) eqn:E; [|discriminate]. apply Nat.eqb_eq in E. apply ok_inj in H. subst d.
    cbn [wf_data kind4 received data_layout Z.eqb Pos.eqb]. unfold u16, ip4. repeat split; auto; try lia; auto using wfb_firstn.
    intros _. rewrite !be2_bytes by lia. reflexivity.
  - destruct (Nat.eqb (length (firstn 4 r)) 4) eqn:E; [|discriminate]. apply Nat.eqb_eq in E. apply ok_inj in H. subst d.
    cbn [wf_data kind4 received data_layout Z.eqb Pos.eqb]. unfold u16, ip4. repeat split; auto; try lia; auto using wfb_firstn.
    intros _. rewrite !be2_bytes by lia. reflexivity. Qed.

Lemma icmp_parse_inv raw m rest : wfb raw -> icmp_from_bytes false raw = Ok (m, rest) ->
  exists body, raw = [ic_type m; ic_code m] ++ be 2 (ic_csum m) ++ body /\ 0 <= ic_csum m < 65536 /\ wfb body /\
  consistent false m /\ wf_data (ic_data m) /\ received (ic_type m) (ic_data m) = ic_data m /\
  rest = skipn (length (data_layout (ic_data m))) body /\
  (reserved_zero (ic_type m) body -> (ic_type m <> 17 /\ ic_type m <> 18 -> data_layout (ic_data m) = body) /\
     (ic_type m = 17 \/ ic_type m = 18 -> data_layout (ic_data m) = firstn 8 body)).
Proof. intros Hw H. unfold icmp_from_bytes in H. destruct (Nat.ltb (length raw) 4) eqn:E; [discriminate|].
  apply ltb_len4 in E as (a & b & c & e & body & ->). destruct (wfb4 _ _ _ _ _ Hw) as (W4 & Wr).
  change (firstn 4 (a :: b :: c :: e :: body)) with [a; b; c; e] in H. change (skipn 4 (a :: b :: c :: e :: body)) with body in H.
  rewrite !wfb_cons in W4. destruct W4 as (Ha & Hb & Hc & He & _).
  assert (P : pack [fB; fB; fH] [VI a; VI b; VI (256 * c + e)] = Ok [a; b; c; e]).
  { rewrite !pack_cons_int by (pow256; lia). cbn [pack bindr]. rewrite !be1, be2_bytes by lia. reflexivity. }
  apply unpack_pack in P. cbn [norm] in P. rewrite P in H. cbn [bindr] in H.
  apply bindr_ok in H as (t & Ht & H). apply enum_of_ok in Ht as [-> Ht].
  destruct (valid_codes false a) as [l|] eqn:El; [|discriminate].
  apply bindr_ok in H as (cc & Hcc & H). apply enum_of_ok in Hcc as [-> Hcc]. cbn [class_of_type] in H.
  apply bindr_ok in H as (d & Hd & H). destruct (data_parse_inv _ _ _ Wr Ht Hd) as (D1 & D2 & D3 & D4).
  destruct (data_encode _ D1) as (D5 & _).
  apply bindr_ok in H as (sz & Hsz & H). unfold icmp_size in Hsz. cbn [ic_data] in Hsz. rewrite D5 in Hsz. cbn [bindr] in Hsz.
  apply ok_inj in Hsz. apply ok_pair_inj in H as [<- <-]. cbn [ic_type ic_code ic_data ic_csum].
  exists body. rewrite be2_bytes by lia. split; [reflexivity|]. split; [lia|]. split; auto.
  split. { split; cbn [ic_type ic_code ic_data]; auto. apply code_ok_codes. eauto. }
  split; auto. split; auto. split; auto. subst sz. 
  replace (Z.to_nat (4 + zlen (data_layout d))) with (4 + length (data_layout d))%nat by (unfold zlen; lia). reflexivity. Qed.

(** A checksum that verifies is the one the code writes, unless it is the other zero. *)
Lemma skipn_nil_len {A} n (l : list A) : skipn n l = [] -> (length l <= n)%nat.
Proof. intros H. apply (f_equal (@length A)) in H. rewrite skipn_length in H. cbn in H. lia. Qed.

Theorem icmp4_forward raw m : wfb raw -> zlen raw <= 65535 -> icmp_from_bytes false raw = Ok (m, []) ->
  verifies raw -> ic_csum m <> 65535 -> reserved_zero (nth 0 raw 0) (skipn 4 raw) ->
  icmp_to_bytes m = Ok raw.
Proof. intros Hw Hl H Hv Hc Hres. destruct (icmp_parse_inv _ _ _ Hw H) as (body & E & Rc & Wb & Hcon & Hwf & _ & Hrest & Hlay).
  assert (Hb : skipn 4 raw = body) by (rewrite E; apply (skipn_app_exact ([ic_type m; ic_code m] ++ be 2 (ic_csum m)) body 4); reflexivity).
  assert (Ht : nth 0 raw 0 = ic_type m) by (rewrite E; reflexivity). rewrite Hb, Ht in Hres.
  specialize (Hlay Hres). 
  assert (L : data_layout (ic_data m) = body).
  { destruct Hlay as [L1 L2]. destruct (Z.eq_dec (ic_type m) 17); [|destruct (Z.eq_dec (ic_type m) 18)]; try (apply L1; auto; fail).
    - specialize (L2 (or_introl e)). rewrite L2. symmetry in Hrest. apply skipn_nil_len in Hrest. rewrite L2, firstn_length in Hrest. apply firstn_all2. lia.
    - specialize (L2 (or_intror e)). rewrite L2. symmetry in Hrest. apply skipn_nil_len in Hrest. rewrite L2, firstn_length in Hrest. apply firstn_all2. lia. }
  assert (Hl' : 4 + zlen (data_layout (ic_data m)) <= 65535).
  { rewrite L. rewrite E, !zlen_app in Hl. unfold zlen in *. rewrite be_length in Hl. cbn [length] in Hl. lia. }
  destruct (icmp4_serialise m Hcon Hwf Hl') as (c & b & Rc' & Eb & Eb' & Hv' & _).
  rewrite Eb. f_equal. rewrite Eb', L, E. f_equal. f_equal. f_equal.
  rewrite Eb', L in Hv'. rewrite E in Hv.
  destruct Hcon as [Hco _]. destruct (type_code_range _ _ _ Hco) as (Rt & Rco & _).
  pose proof (checksum_unique [ic_type m; ic_code m] body (be 2 (ic_csum m)) (be 2 c) ltac:(repeat constructor; lia) Wb
    ltac:(apply be_wfb) ltac:(apply be_wfb) ltac:(apply be_length) ltac:(apply be_length) eq_refl Hv Hv') as Hu.
  rewrite !unbe_be_small in Hu by (pow256; lia).
  assert (Hcase : c = ic_csum m \/ (c = 65535 /\ ic_csum m = 0)) by lia.
  destruct Hcase as [|[-> H0]]; auto. exfalso.
  (* the code writes 65535 only for an all-zero message, which does not verify with 0 *)
  unfold icmp_to_bytes in Eb. rewrite (icmp_pack_ok false m 0) in Eb by (auto; try (split; [exact Hco|]; destruct (icmp_parse_inv _ _ _ Hw H) as (? & _ & _ & _ & [_ ?] & _); auto); lia).
  cbn [bindr] in Eb.
  assert (Ecs : cksum ([ic_type m; ic_code m] ++ be 2 0 ++ data_layout (ic_data m)) = 65535).
  { unfold icmp_pack in Eb. apply bindr_ok in Eb as (hd & Hh & Eb). apply bindr_ok in Eb as (dd & Hdd & Eb).
    apply pack_packable in Hh as Hpk. cbn [packable] in Hpk. pow256. 
    set (cs := cksum _) in *. rewrite !pack_cons_int in Hh by (pow256; lia). cbn [pack bindr] in Hh. apply ok_inj in Hh. apply ok_inj in Eb.
    rewrite Eb', <- Hh in Eb. rewrite app_nil_r, (be1 (ic_type m)), (be1 (ic_code m)) in Eb by lia. cbn [app] in Eb.
    apply cons_inj in Eb as [_ Eb]. apply cons_inj in Eb as [_ Eb].
    assert (F : firstn 2 (be 2 cs ++ dd) = firstn 2 (be 2 65535 ++ data_layout (ic_data m))) by (rewrite Eb; reflexivity).
    rewrite !firstn_app_exact in F by (rewrite be_length; reflexivity). apply (f_equal unbe) in F. rewrite !unbe_be_small in F by (pow256; lia). exact F. }
  rewrite L in Ecs. rewrite H0 in Hv. 
  unfold cksum in Ecs. rewrite checksum_rfc1071 in Ecs.
  - unfold rfc1071 in Ecs. unfold verifies in Hv. lia.
  - rewrite !wfb_app. repeat split; auto using be_wfb. repeat constructor; lia.
  - rewrite E, H0 in Hl. lia. Qed.

(** ** The option loop *)
(** An option of unknown type and length zero is reachable by stepping over options of positive length. *)
Inductive nd_stuck : bytes -> Prop :=
| stuck_here t rest : (8 <= length (t :: 0%Z :: rest))%nat -> ~ In t [1; 2; 3; 4; 5] -> nd_stuck (t :: 0 :: rest)
| stuck_later t n rest : (8 <= length (t :: n :: rest))%nat -> 0 < n ->
    nd_stuck (skipn (Z.to_nat (n * 8)) (t :: n :: rest)) -> nd_stuck (t :: n :: rest).

Lemma nds_step fuel l t n r : l = t :: n :: r -> ndopts_from_bytes (S fuel) l =
  (if Nat.ltb (length l) 8 then Ok [] else
   if negb (zmem t ICMPv6OptionNumbers) then ndopts_from_bytes fuel (skipn (Z.to_nat (n * 8)) l)
   else o <- nd_from_bytes t (firstn (Z.to_nat (n * 8)) l);; os <- ndopts_from_bytes fuel (skipn (Z.to_nat (n * 8)) l);; Ok (o :: os)).
Proof. intros ->. reflexivity. Qed.

Lemma nd_from_bytes_nil t : zmem t ICMPv6OptionNumbers = true -> exists e, nd_from_bytes t [] = Err e /\ e <> EFuel.
Proof. intros H. apply zmem_In in H. unfold ICMPv6OptionNumbers in H. in_cases H; eexists; (split; [reflexivity|]); discriminate. Qed.

Lemma pack_no_fuel f vs : pack f vs <> Err EFuel.
Proof. intros H. apply pack_err in H. discriminate. Qed.
Lemma unpack_no_fuel f b : unpack f b <> Err EFuel.
Proof. intros H. apply unpack_err in H. discriminate. Qed.

Lemma bindr_err_ne {A B} (r : res A) (k : A -> res B) : r <> Err EFuel -> (forall a, k a <> Err EFuel) -> bindr r k <> Err EFuel.
Proof. intros H1 H2. destruct r; cbn; auto. congruence. Qed.

Lemma nd_from_bytes_no_fuel t raw : nd_from_bytes t raw <> Err EFuel.
Proof. unfold nd_from_bytes.
  repeat match goal with
  | |- (if ?c then _ else _) <> _ => destruct c
  | |- bindr (unpack _ _) _ <> _ => apply bindr_err_ne; [apply unpack_no_fuel|intros ?]
  | |- bindr (v6addr_of ?f) _ <> _ => apply bindr_err_ne; [unfold v6addr_of|intros ?]
  | |- bindr (eth_init _) _ <> _ => apply bindr_err_ne; [cbn; try (destruct (Nat.eqb _ _); discriminate)|intros ?]
  | |- match ?x with _ => _ end <> _ => destruct x
  | |- Err _ <> Err _ => discriminate
  | |- Ok _ <> Err _ => discriminate
  end. Qed.

Lemma nds_fuel_stuck fuel raw : wfb raw -> (length raw < fuel)%nat -> ndopts_from_bytes fuel raw = Err EFuel -> nd_stuck raw.
Proof. revert raw. induction fuel as [|fuel IH]; intros raw Hw Hl H; [lia|].
  destruct raw as [|t [|n r]]; [discriminate|discriminate|].
  rewrite (nds_step fuel _ t n r eq_refl) in H.
  destruct (Nat.ltb (length (t :: n :: r)) 8) eqn:E; [discriminate|]. apply Nat.ltb_ge in E.
  pose proof Hw as Hw'. rewrite !wfb_cons in Hw'. destruct Hw' as (Ht & Hn & _).
  destruct (Z.eq_dec n 0) as [->|Hn0].
  - destruct (zmem t ICMPv6OptionNumbers) eqn:Em; cbn [negb] in H.
    + change (firstn (Z.to_nat (0 * 8)) (t :: 0 :: r)) with (@nil Z) in H. destruct (nd_from_bytes_nil t Em) as (e & He & Hne).
      rewrite He in H. cbn [bindr] in H. congruence.
    + apply stuck_here; auto. intros Hi. apply zmem_In in Hi. unfold ICMPv6OptionNumbers in Em. congruence.
  - assert (Hs : ndopts_from_bytes fuel (skipn (Z.to_nat (n * 8)) (t :: n :: r)) = Err EFuel).
    { destruct (negb _); auto. destruct (nd_from_bytes _ _) as [o|e] eqn:Eo; cbn [bindr] in H.
      - destruct (ndopts_from_bytes fuel _) as [os|e']; cbn [bindr] in H; congruence.
      - exfalso. apply (nd_from_bytes_no_fuel t (firstn (Z.to_nat (n * 8)) (t :: n :: r))). congruence. }
    apply stuck_later; [auto|lia|]. apply IH; auto using wfb_skipn. rewrite skipn_length. lia. Qed.

Lemma nds_mono fuel raw r : ndopts_from_bytes fuel raw = r -> r <> Err EFuel -> forall fuel', (fuel <= fuel')%nat -> ndopts_from_bytes fuel' raw = r.
Proof. revert raw r. induction fuel as [|fuel IH]; intros raw r H Hr fuel' Hf; [cbn in H; congruence|].
  destruct fuel' as [|fuel']; [lia|].
  destruct raw as [|t [|n l]]; [exact H|exact H|].
  rewrite (nds_step fuel _ t n l eq_refl) in H. rewrite (nds_step fuel' _ t n l eq_refl).
  destruct (Nat.ltb _ 8); auto. destruct (negb _); [apply IH; auto; lia|].
  destruct (nd_from_bytes _ _) as [o|e]; cbn [bindr] in *; auto.
  destruct (ndopts_from_bytes fuel (skipn (Z.to_nat (n * 8)) (t :: n :: l))) as [os|e'] eqn:E; cbn [bindr] in H.
  - rewrite (IH _ _ E) by (try discriminate; lia). exact H.
  - rewrite (IH _ _ E) by (try congruence; lia). exact H. Qed.

Theorem nds_terminates raw : wfb raw -> ~ nd_stuck raw ->
  exists r, r <> Err EFuel /\ forall fuel, (length raw < fuel)%nat -> ndopts_from_bytes fuel raw = r.
Proof. intros Hw Hs. exists (ndopts_from_bytes (S (length raw)) raw).
  assert (H : ndopts_from_bytes (S (length raw)) raw <> Err EFuel) by (intros H; apply Hs; apply (nds_fuel_stuck (S (length raw))); auto).
  split; auto. intros fuel Hf. eapply nds_mono; eauto. Qed.

Lemma nds_loops : forall fuel, ndopts_from_bytes fuel [14; 0; 0; 0; 0; 0; 0; 0] = Err EFuel.
Proof. induction fuel as [|fuel IH]; [reflexivity|]. rewrite (nds_step _ _ 14 0 [0;0;0;0;0;0] eq_refl). exact IH. Qed.
