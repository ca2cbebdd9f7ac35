(** Proofs about the programs of the documentation. *)
From Verif Require Import BaseLemmas CodecLemmas Dict DictLemmas EthAddrModel EthModel PacketModel PacketProofs NetModel NetProofs TestModel TestSpec TestMatch TestRun HubModel HubSpec HubProofs ExModel ExSpec ExProofs DocNetModel DocNetSpec.
#[local] Open Scope list_scope.

(** ** Echo *)
Lemma echo_not_return n : echo n <> Return. Proof. destruct n; discriminate. Qed.
Lemma echo_carries : forall n tr e, talk (echo n) tr e -> (forall r, In r (received_in tr) -> printable (rv_pkt r)) -> forall a, carried a a tr.
Proof.
  induction n as [|n IH]; intros tr e T D a; [inversion T; subst; apply carried_nil|]. cbn [echo] in T. inversion T as [| |c k x tr0 e0 T0]; subst. destruct x as [r| |x].
  - assert (Dr : pkt_shows (rv_pkt r) = true) by (apply pkt_prints, D; left; reflexivity). rewrite Dr in T0. inversion T0 as [| |c k s tr1 e1 T1]; subst.
    apply carried_pair; [reflexivity|]. destruct s as [r1| |x1]; [apply (IH tr1 e T1); intros r2 H2; apply D; right; exact H2..|inversion T1; subst; apply carried_nil].
  - inversion T0; subst. apply carried_one. discriminate.
  - destruct x; try (inversion T0; subst; apply carried_one; discriminate). apply carried_skip; [discriminate|]. apply (IH tr0 e T0). exact D.
Qed.
Lemma echo_stops : forall n tr e, talk (echo n) tr e -> stops_right tr e.
Proof.
  induction n as [|n IH]; intros tr e T; [inversion T; subst; apply stops_raise|]. cbn [echo] in T. inversion T as [| |c k x tr0 e0 T0]; subst. destruct x as [r| |x].
  - destruct (pkt_shows (rv_pkt r)); [|inversion T0; subst; apply stops_end; discriminate]. inversion T0 as [| |c k s tr1 e1 T1]; subst.
    apply stops_more; [discriminate|left; discriminate|]. destruct s as [r1| |x1].
    1,2: (apply stops_more; [discriminate|eapply talk_loop_nonempty; [exact T1|apply echo_not_return]|apply IH; exact T1]).
    inversion T1; subst. apply stops_last. intros [X _]; discriminate.
  - inversion T0; subst. apply stops_end. discriminate.
  - destruct x; try (inversion T0; subst; apply stops_last; intros [_ X]; discriminate); [|inversion T0; subst; apply stops_shutdown].
    apply stops_more; [intros x E; injection E as <-; auto|eapply talk_loop_nonempty; [exact T0|apply echo_not_return]|apply IH; exact T0].
Qed.
Lemma play_echo ifs es : echo_script (dkeys ifs) es -> (forall k i, In (k, i) ifs -> if_name i = k) -> forall pend n t, map sv_ev pend = es -> Forall (fun x => prt (sv_ev x)) pend ->
  (forall d p q, In (EvIn d p) es -> reads_as p q -> printable q) -> (List.length es < n)%nat -> state t ifs pend ->
  exists t' tr, play t (echo n) = (t', tr, EndReturn) /\ state t' ifs [].
Proof.
  intros H TK. induction H as [|w es H IH|dev p q m es Hd R M H IH]; intros pend n t E Pr Pq L S; (destruct n as [|n]; [cbn in L; lia|]); cbn [echo play].
  - destruct pend; [|discriminate]. destruct S as (Ep & Ei & Sh). assert (C : do_call t CRecv = (t, AnsExn EShutdown)) by (cbn [do_call]; unfold t_recv; rewrite Ep; reflexivity). rewrite C. cbn [play]. do 2 eexists. split; [reflexivity|]. repeat split; auto.
  - destruct pend as [|e pend]; [discriminate|]. cbn [map] in E. injection E as E1 E2. inversion Pr as [|? ? Pe Pr2]; subst es. destruct (recv_wait t ifs e pend w S E1 Pr2) as (t1 & C & S1). rewrite C.
    destruct (IH pend n t1 eq_refl Pr2) as (t2 & tr & P2 & S2); [intros d p q Hi; apply (Pq d p q); right; exact Hi|cbn [List.length] in L; lia|exact S1|]. rewrite P2. eauto.
  - destruct pend as [|e [|e2 pend]]; [discriminate..|]. cbn [map] in E. injection E as E1 E2 E3. inversion Pr as [|? ? Pe Pr2]; subst. inversion Pr2 as [|? ? Pe2 Pr3]; subst.
    destruct (recv_input t ifs e (e2 :: pend) dev p q S E1 Pe Pr2 R Hd) as (t1 & C & S1). rewrite C. cbn [rv_pkt rv_dev].
    assert (Q : printable q) by (apply (Pq dev p q); [left; reflexivity|exact R]). assert (Q2 : pkt_shows q = true) by (apply pkt_prints; exact Q). rewrite Q2. cbn [play].
    unfold dkeys in Hd. apply in_map_iff in Hd as ([k i] & Ek & Hi). cbn [fst] in Ek. subst k. pose proof (TK _ _ Hi) as Ni.
    rewrite E2 in Pe2. destruct (send_one t1 ifs e2 pend (mkOut [(dev, m)] []) i q m S1 E2 (proj1 Pe2) Pr3 Q) as (t2 & o' & C2 & W & V & S2).
    { cbn [oe_wait dget]. rewrite Ni, str_eqb_refl. reflexivity. }
    { exact M. }
    change (do_call t1 (CSend (DIface i) q)) with (do_call t1 (CSend (DName (if_name i)) q)) in C2. rewrite Ni in C2. rewrite C2. cbn [oe_wait ddel] in W. rewrite Ni, str_eqb_refl in W. rewrite W in S2.
    cbn [List.length] in L. destruct (IH pend n t2 eq_refl Pr3) as (t3 & tr3 & P3 & S3); [intros d p0 q0 Hi0; apply (Pq d p0 q0); right; right; exact Hi0|lia|exact S2|]. rewrite P3. eauto.
Qed.

(** ** The simple hub *)
Lemma from_app nm a b : from_elsewhere nm (a ++ b) = from_elsewhere nm a ++ from_elsewhere nm b. Proof. apply flat_map_app. Qed.
Definition no_recv (tr : list (call * answer)) : Prop := forall x, ~ In (CRecv, x) tr.
Lemma no_recv_nil tr : no_recv tr -> received_in tr = [].
Proof. induction tr as [|[[|d p] a] tr IH]; intros H; [reflexivity|exfalso; apply (H a); left; reflexivity|]. change (received_in ((CSend d p, a) :: tr)) with (received_in tr). apply IH. intros x Hx. apply (H x). right. exact Hx. Qed.
(** Sending to all others: either all of it was done and the rest follows, or a send failed and the program ended. *)
Lemma flood_sends dev p k l : forall tr e, NoDup (map if_name l) -> talk (flood_names l dev p k) tr e ->
  exists pre tr2, tr = pre ++ tr2 /\ no_recv pre /\ (forall d q x, In (CSend d q, x) pre -> q = p /\ exists name, d = DName name /\ In name (map if_name l)) /\
    ((talk k tr2 e /\ (forall d q x, ~ In (CSend d q, AnsExn x) pre) /\ forall name, sent_to name pre = if in_dec String.string_dec name (map if_name l) then if String.string_dec dev name then [] else [p] else []) \/
     (tr2 = [] /\ exists pre0 d x, pre = pre0 ++ [(CSend d p, AnsExn x)] /\ (forall d q y, ~ In (CSend d q, AnsExn y) pre0) /\ e = EndRaise x /\
        forall name, sent_to name pre = [] \/ sent_to name pre = [p] /\ dev <> name /\ In name (map if_name l))).
Proof.
  induction l as [|i l IH]; intros tr e N T; cbn [flood_names map] in *.
  - exists [], tr. split; [reflexivity|]. split; [intros x []|]. split; [intros d q x []|]. left. split; [exact T|]. split; [intros d q x []|]. reflexivity.
  - inversion N as [|? ? N1 N2]; subst. destruct (str_spec dev (if_name i)) as [E|E].
    + destruct (IH tr e N2 T) as (pre & tr2 & E1 & E2 & E2b & [(E3 & E3b & E4)|(E3 & pre0 & d0 & x & E4 & E5 & E6 & E7)]); exists pre, tr2; (split; [exact E1|]); (split; [exact E2|]); (split; [intros d q y Hy; destruct (E2b d q y Hy) as (A & nm & B & C); split; [exact A|exists nm; split; [exact B|right; exact C]]|]).
      * left. split; [exact E3|]. split; [exact E3b|]. intros name. rewrite E4. destruct (in_dec String.string_dec name (map if_name l)) as [A|A]; destruct (in_dec String.string_dec name (if_name i :: map if_name l)) as [B|B]; try reflexivity; [exfalso; apply B; right; exact A|].
        destruct B as [B|B]; [|contradiction]. destruct (String.string_dec dev name); [reflexivity|congruence].
      * right. split; [exact E3|]. exists pre0, d0, x. split; [exact E4|]. split; [exact E5|]. split; [exact E6|]. intros name. destruct (E7 name) as [A|(A & B & C)]; [auto|]. right. split; [exact A|]. split; [exact B|right; exact C].
    + inversion T as [| |c k0 a tr0 e0 T0]; subst.
      assert (S : forall name, sent_to name [(CSend (DName (if_name i)) p, a)] = if String.string_dec (if_name i) name then [p] else []).
      { intros name. unfold sent_to. cbn [flat_map]. rewrite app_nil_r. reflexivity. }
      destruct (match a with AnsExn x => inl x | _ => inr tt end) as [x|u] eqn:Ea.
      * assert (a = AnsExn x) by (destruct a; congruence). subst a. inversion T0; subst. exists [(CSend (DName (if_name i)) p, AnsExn x)], []. split; [reflexivity|]. split; [intros y [Y|[]]; discriminate|].
        split; [intros d q y [Y|[]]; injection Y as <- <- _; split; [reflexivity|eexists; split; [reflexivity|left; reflexivity]]|]. right. split; [reflexivity|]. exists [], (DName (if_name i)), x. split; [reflexivity|]. split; [intros d q y []|]. split; [reflexivity|].
        intros name. rewrite S. destruct (String.string_dec (if_name i) name) as [X|X]; [right|auto]. split; [reflexivity|]. split; [congruence|left; exact X].
      * assert (Na : forall y, a <> AnsExn y) by (intros y ->; discriminate). assert (T1 : talk (flood_names l dev p k) tr0 e) by (destruct a; [exact T0|exact T0|exfalso; eapply Na; reflexivity]). clear T0 T.
        destruct (IH tr0 e N2 T1) as (pre & tr2 & E1 & E2 & E2b & E3). exists ((CSend (DName (if_name i)) p, a) :: pre), tr2. split; [rewrite E1; reflexivity|]. split; [intros y [Y|Y]; [discriminate|exact (E2 y Y)]|].
        split; [intros d q y [Y|Y]; [injection Y as <- <- _; split; [reflexivity|eexists; split; [reflexivity|left; reflexivity]]|]; destruct (E2b d q y Y) as (A & nm & B & C); split; [exact A|exists nm; split; [exact B|right; exact C]]|].
        change ((CSend (DName (if_name i)) p, a) :: pre) with ([(CSend (DName (if_name i)) p, a)] ++ pre).
        destruct E3 as [(E3 & E3b & E4)|(E3 & pre0 & d0 & x & E4 & E5 & E6 & E7)].
        -- left. split; [exact E3|]. split; [intros d q y [Y|Y]; [injection Y as _ _ Y; exact (Na _ Y)|exact (E3b d q y Y)]|]. intros name. rewrite sent_app, S, E4. destruct (String.string_dec (if_name i) name) as [X|X].
           ++ subst name. destruct (in_dec String.string_dec (if_name i) (map if_name l)); [contradiction|]. destruct (in_dec String.string_dec (if_name i) (if_name i :: map if_name l)) as [B|B]; [|exfalso; apply B; left; reflexivity]. destruct (String.string_dec dev (if_name i)); [contradiction|reflexivity].
           ++ cbn [app]. destruct (in_dec String.string_dec name (map if_name l)) as [A|A]; destruct (in_dec String.string_dec name (if_name i :: map if_name l)) as [B|B]; try reflexivity; [exfalso; apply B; right; exact A|]. destruct B as [B|B]; contradiction.
        -- right. split; [exact E3|]. exists ((CSend (DName (if_name i)) p, a) :: pre0), d0, x. split; [rewrite E4; reflexivity|]. split; [intros d q y [Y|Y]; [injection Y as _ _ Y; exact (Na _ Y)|exact (E5 d q y Y)]|]. split; [exact E6|].
           intros name. rewrite sent_app, S. destruct (String.string_dec (if_name i) name) as [X|X].
           ++ subst name. right. split; [|split; [exact E|left; reflexivity]]. destruct (E7 (if_name i)) as [A|(_ & _ & A)]; [rewrite A; reflexivity|contradiction].
           ++ destruct (E7 name) as [A|(A & B & C)]; [left; exact A|right]. split; [exact A|]. split; [exact B|right; exact C].
Qed.
Lemma spread_nil nm : spread nm []. Proof. intros [|? ?] x post H; discriminate. Qed.
Lemma spread_one nm x : spread nm [(CRecv, x)]. Proof. intros [|? [|? ?]] y post H; cbn [app] in H; try discriminate. reflexivity. Qed.
Lemma spread_block nm x pre tr : no_recv pre -> sent_to nm pre = from_elsewhere nm (received_in [(CRecv, x)]) -> spread nm tr -> spread nm ((CRecv, x) :: pre ++ tr).
Proof.
  intros N S H a y post E. destruct a as [|z a]; cbn [app] in E; [reflexivity|]. injection E as <- E.
  assert (K : exists a2, a = pre ++ a2 /\ tr = a2 ++ (CRecv, y) :: post).
  { clear S H. revert a E. induction pre as [|u pre IH]; intros a E; [exists a; auto|]. cbn [app] in E. destruct a as [|v a]; cbn [app] in E; [injection E as -> E; exfalso; apply (N y); left; reflexivity|].
    injection E as <- E. destruct (IH (fun w Hw => N w (or_intror Hw)) a E) as (a2 & -> & Ha). exists a2. auto. }
  destruct K as (a2 & -> & Ha). change ((CRecv, x) :: pre ++ a2) with ([(CRecv, x)] ++ pre ++ a2). rewrite !sent_app, !recv_app, !from_app, S, (H _ _ _ Ha), (no_recv_nil _ N). destruct x; reflexivity.
Qed.
Lemma simple_hub_not_return n ifs : simple_hub n ifs <> Return. Proof. destruct n; discriminate. Qed.
Lemma simple_hub_talk ifs : NoDup (map if_name ifs) -> forall n tr e, talk (simple_hub n ifs) tr e ->
  stops_right tr e /\ (forall d q x, In (CSend d q, x) tr -> exists name, d = DName name /\ In name (map if_name ifs)) /\
  forall name, In name (map if_name ifs) -> spread name tr /\ exists missing, from_elsewhere name (received_in tr) = sent_to name tr ++ missing /\ (List.length missing <= 1)%nat /\ ((forall d q x, ~ In (CSend d q, AnsExn x) tr) -> missing = []).
Proof.
  intros N. induction n as [|n IH]; intros tr e T.
  { inversion T; subst. split; [apply stops_raise|]. split; [intros d q x []|]. intros name _. split; [apply spread_nil|]. exists []. auto. }
  cbn [simple_hub] in T. inversion T as [| |c k a tr0 e0 T0]; subst. clear T.
  assert (End : (forall r, a <> AnsRecv r) -> tr0 = [] -> (forall d q x, In (CSend d q, x) ((CRecv, a) :: tr0) -> exists name, d = DName name /\ In name (map if_name ifs)) /\
    forall name, In name (map if_name ifs) -> spread name ((CRecv, a) :: tr0) /\ exists missing, from_elsewhere name (received_in ((CRecv, a) :: tr0)) = sent_to name ((CRecv, a) :: tr0) ++ missing /\ (List.length missing <= 1)%nat /\ ((forall d q x, ~ In (CSend d q, AnsExn x) ((CRecv, a) :: tr0)) -> missing = [])).
  { intros Na ->. split; [intros d q x [X|[]]; discriminate|]. intros name _. split; [apply spread_one|]. exists []. destruct a as [r| |x]; [exfalso; eapply Na; reflexivity| |]; auto. }
  destruct a as [r| |x].
  - clear End. destruct (flood_sends _ _ _ _ _ _ N T0) as (pre & tr2 & -> & E2 & E2b & [(E3 & E3b & E4)|(-> & pre0 & d0 & x & E4 & E5 & E6 & E7)]).
    + destruct (IH _ _ E3) as (I1 & I2 & I3). split; [|split].
      * apply stops_more; [discriminate| |].
        -- destruct pre; [|left; discriminate]. cbn [app]. eapply talk_loop_nonempty; [exact E3|apply simple_hub_not_return].
        -- assert (G : forall l, (forall d q x, ~ In (CSend d q, AnsExn x) l) -> no_recv l -> stops_right (l ++ tr2) e).
           { induction l as [|[c y] l IHl]; intros F R; [exact I1|]. cbn [app]. apply stops_more.
             - intros x ->. destruct c as [|d q]; [exfalso; apply (R (AnsExn x)); left; reflexivity|]. exfalso. apply (F d q x). left. reflexivity.
             - destruct l; [|left; discriminate]. cbn [app]. eapply talk_loop_nonempty; [exact E3|apply simple_hub_not_return].
             - apply IHl; [intros d q x X; apply (F d q x); right; exact X|intros x X; apply (R x); right; exact X]. }
           apply G; assumption.
      * intros d q x [X|X]; [discriminate|]. apply in_app_iff in X as [X|X]; [destruct (E2b _ _ _ X) as (_ & Y); exact Y|exact (I2 _ _ _ X)].
      * intros name Hn. destruct (I3 name Hn) as (J1 & mi & J2 & J3 & J4). specialize (E4 name). destruct (in_dec String.string_dec name (map if_name ifs)) as [_|X]; [|contradiction].
        assert (E5 : sent_to name pre = from_elsewhere name (received_in [(CRecv, AnsRecv r)])) by (rewrite E4; change (received_in [(CRecv, AnsRecv r)]) with [r]; unfold from_elsewhere; cbn [flat_map]; rewrite app_nil_r; reflexivity).
        split; [apply spread_block; assumption|]. exists mi. split; [|split; [exact J3|intros F; apply J4; intros d q x X; apply (F d q x); right; apply in_or_app; right; exact X]].
        change ((CRecv, AnsRecv r) :: pre ++ tr2) with ([(CRecv, AnsRecv r)] ++ pre ++ tr2). rewrite !recv_app, !sent_app, !from_app, (no_recv_nil _ E2), E5, J2. change (sent_to name [(CRecv, AnsRecv r)]) with (@nil packet). change (from_elsewhere name []) with (@nil packet). cbn [app]. rewrite <- app_assoc. reflexivity.
    + rewrite app_nil_r in *. split; [|split].
      * subst e pre. apply stops_more; [discriminate|left; destruct pre0; discriminate|].
        assert (R : no_recv pre0) by (intros y Y; apply (E2 y); apply in_or_app; left; exact Y). clear E2 E2b E7 T0. induction pre0 as [|[c y] l IHl]; cbn [app]; [apply stops_last; intros [X _]; discriminate|].
        apply stops_more; [|left; destruct l; discriminate|apply IHl; [intros d q z Z; apply (E5 d q z); right; exact Z|intros z Z; apply (R z); right; exact Z]].
        intros z ->. destruct c as [|d q]; [exfalso; apply (R (AnsExn z)); left; reflexivity|exfalso; apply (E5 d q z); left; reflexivity].
      * intros d q y [X|X]; [discriminate|]. destruct (E2b _ _ _ X) as (_ & Y). exact Y.
      * intros name Hn. split.
        -- intros a y post E. destruct a as [|z a]; cbn [app] in E; [reflexivity|]. injection E as <- E. exfalso. apply (E2 y). rewrite E. apply in_or_app. right. left. reflexivity.
        -- change (received_in ((CRecv, AnsRecv r) :: pre)) with (r :: received_in pre). change (sent_to name ((CRecv, AnsRecv r) :: pre)) with (sent_to name pre). rewrite (no_recv_nil _ E2). unfold from_elsewhere. cbn [flat_map]. rewrite app_nil_r.
           assert (F : In (CSend d0 (rv_pkt r), AnsExn x) pre) by (rewrite E4; apply in_or_app; right; left; reflexivity).
           destruct (String.string_dec (rv_dev r) name) as [D|D].
           ++ exists []. destruct (E7 name) as [A|(_ & A & _)]; [rewrite A; cbn; auto|contradiction].
           ++ destruct (E7 name) as [A|(A & _)]; rewrite A; [exists [rv_pkt r]|exists []; cbn; auto]. split; [reflexivity|]. split; [cbn; lia|]. intros X. exfalso. apply (X d0 (rv_pkt r) x). right. exact F.
  - inversion T0; subst. split; [apply stops_end; discriminate|]. apply End; [discriminate|reflexivity].
  - destruct x; try (inversion T0; subst; split; [apply stops_last; intros [_ X]; discriminate|apply End; [discriminate|reflexivity]]).
    + destruct (IH _ _ T0) as (I1 & I2 & I3). split; [apply stops_more; [intros x E; injection E as <-; auto|eapply talk_loop_nonempty; [exact T0|apply simple_hub_not_return]|exact I1]|]. split; [intros d q x [X|X]; [discriminate|exact (I2 _ _ _ X)]|].
      intros name Hn. destruct (I3 name Hn) as (J1 & mi & J2 & J3 & J4). split; [exact (spread_block name (AnsExn ENoPackets) [] tr0 (fun _ X => X) eq_refl J1)|]. exists mi. split; [exact J2|]. split; [exact J3|]. intros F. apply J4. intros d q x X. apply (F d q x). right. exact X.
    + inversion T0; subst. split; [apply stops_shutdown|]. apply End; [discriminate|reflexivity].
Qed.

(** On a test network: by name or by interface object makes no difference. *)
Lemma flood_play dev p k l : forall t t' tr e, play t (flood l dev p k) = (t', tr, e) -> exists tr', play t (flood_names l dev p k) = (t', tr', e).
Proof.
  induction l as [|i l IH]; intros t t' tr e H; cbn [flood flood_names] in *; [eauto|]. destruct (str_eqb dev (if_name i)); [eauto|]. cbn [play] in *. change (do_call t (CSend (DName (if_name i)) p)) with (do_call t (CSend (DIface i) p)).
  destruct (do_call t (CSend (DIface i) p)) as [t1 a]. destruct a as [r| |x]; [| |cbn [play] in *; injection H as <- _ <-; eauto].
  all: destruct (play t1 (flood l dev p k)) as [[t2 tr2] e2] eqn:F; injection H as <- _ <-; destruct (IH _ _ _ _ F) as [tr' ->]; eauto.
Qed.
Lemma play_simple ifs es : spread_script (dkeys ifs) es -> table_ok ifs -> forall pend n t, map sv_ev pend = es -> Forall (fun x => prt (sv_ev x)) pend ->
  (forall d p q, In (EvIn d p) es -> reads_as p q -> printable q) -> (List.length es < n)%nat -> state t ifs pend ->
  exists t' tr, play t (simple_hub n (map snd ifs)) = (t', tr, EndReturn) /\ state t' ifs [].
Proof.
  intros H [TN TK]. assert (NN : map if_name (map snd ifs) = dkeys ifs).
  { unfold dkeys. rewrite map_map. apply map_ext_in. intros [k i] Hi. cbn [snd fst]. exact (TK k i Hi). }
  assert (ND : NoDup (map if_name (map snd ifs))) by (rewrite NN; exact TN).
  assert (Go : forall n dev q t1 pend, Forall (fun x => prt (sv_ev x)) pend -> printable q -> still ifs pend dev q (map snd ifs) t1 -> (forall t2, state t2 ifs pend -> exists t3 tr3, play t2 (simple_hub n (map snd ifs)) = (t3, tr3, EndReturn) /\ state t3 ifs []) ->
    exists t3 tr3, play t1 (flood_names (map snd ifs) dev q (simple_hub n (map snd ifs))) = (t3, tr3, EndReturn) /\ state t3 ifs []).
  { intros n dev q t1 pend Pr Q St K. destruct (play_flood ifs pend dev q (simple_hub n (map snd ifs)) (map snd ifs) t1 ND Pr Q St) as (t2 & tr & S2 & P2). destruct (K t2 S2) as (t3 & tr3 & P3 & S3). rewrite P3 in P2. destruct (flood_play _ _ _ _ _ _ _ _ P2) as [tr' P]. eauto. }
  induction H as [|w es H IH|dev p q es Hd R K H IH|dev p q o es Hd R W Nd D M G H IH]; intros pend n t E Pr Pq L S; (destruct n as [|n]; [cbn in L; lia|]); cbn [simple_hub play].
  - destruct pend; [|discriminate]. destruct S as (Ep & Ei & Sh). assert (C : do_call t CRecv = (t, AnsExn EShutdown)) by (cbn [do_call]; unfold t_recv; rewrite Ep; reflexivity). rewrite C. cbn [play]. do 2 eexists. split; [reflexivity|]. repeat split; auto.
  - destruct pend as [|e pend]; [discriminate|]. cbn [map] in E. injection E as E1 E2. inversion Pr as [|? ? Pe Pr2]; subst. destruct (recv_wait t ifs e pend w S E1 Pr2) as (t1 & C & S1). rewrite C.
    destruct (IH pend n t1 eq_refl Pr2) as (t2 & tr & P2 & S2); [intros d p q Hi; apply (Pq d p q); right; exact Hi|cbn [List.length] in L; lia|exact S1|]. rewrite P2. eauto.
  - destruct pend as [|e pend]; [discriminate|]. cbn [map] in E. injection E as E1 E2. inversion Pr as [|? ? Pe Pr2]; subst. destruct (recv_input t ifs e pend dev p q S E1 Pe Pr2 R Hd) as (t1 & C & S1). rewrite C. cbn [rv_pkt rv_dev].
    assert (Q : printable q) by (apply (Pq dev p q); [left; reflexivity|exact R]). cbn [List.length] in L.
    destruct (Go n dev q t1 pend Pr2 Q) as (t3 & tr3 & P3 & S3).
    + left. split; [exact S1|]. intros i Hi. apply K. rewrite <- NN. apply in_map. exact Hi.
    + intros t2 S2. apply (IH pend n t2 eq_refl Pr2); [intros d p0 q0 Hi; apply (Pq d p0 q0); right; exact Hi|lia|exact S2].
    + rewrite P3. eauto.
  - destruct pend as [|e [|e2 pend]]; [discriminate..|]. cbn [map] in E. injection E as E1 E2 E3. inversion Pr as [|? ? Pe Pr2]; subst. inversion Pr2 as [|? ? Pe2 Pr3]; subst. destruct (recv_input t ifs e (e2 :: pend) dev p q S E1 Pe Pr2 R Hd) as (t1 & C & S1). rewrite C. cbn [rv_pkt rv_dev].
    assert (Q : printable q) by (apply (Pq dev p q); [left; reflexivity|exact R]). cbn [List.length] in L.
    destruct (Go n dev q t1 pend Pr3 Q) as (t3 & tr3 & P3 & S3).
    + right. exists e2, o. rewrite E2 in Pe2. split; [exact S1|]. split; [exact E2|]. split; [exact (proj1 Pe2)|]. split; [exact W|]. split; [exact Nd|]. split; [rewrite NN; exact D|exact M].
    + intros t2 S2. apply (IH pend n t2 eq_refl Pr3); [intros d p0 q0 Hi; apply (Pq d p0 q0); right; right; exact Hi|lia|exact S2].
    + rewrite P3. eauto.
Qed.

(** ** The wrong hub *)
Lemma sheep_changes p : (exists e, In (HEth e) p) -> source_changed sheep p (with_sheep p).
Proof.
  induction p as [|h p IH]; intros [e H]; [destruct H|]. destruct (match h with HEth x => Some x | _ => None end) as [x|] eqn:Eh.
  - assert (h = HEth x) by (destruct h; congruence). subst h. exists [], x, p. split; [reflexivity|]. split; [intros y []|reflexivity].
  - assert (Nh : forall y, h <> HEth y) by (intros y ->; discriminate). destruct H as [H|H]; [exfalso; exact (Nh _ H)|]. destruct (IH (ex_intro _ e H)) as (pre & e1 & post & A & B & C). exists (h :: pre), e1, post.
    split; [rewrite A; reflexivity|]. split; [intros y [Y|Y]; [exact (Nh _ Y)|exact (B y Y)]|]. assert (W : with_sheep (h :: p) = h :: with_sheep p) by (destruct h; try reflexivity; discriminate). rewrite W, C. reflexivity.
Qed.
