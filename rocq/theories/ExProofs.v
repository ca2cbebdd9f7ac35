(** Proofs about the example programs. *)
From Verif Require Import BaseLemmas CodecLemmas Dict DictLemmas EthAddrModel EthModel PacketModel PacketProofs NetModel NetProofs TestModel TestSpec TestMatch TestRun HubModel HubSpec HubProofs ExModel ExSpec.
#[local] Open Scope list_scope.

(** ** The dictionary of ports *)
Lemma fold_dset_new (l : list (str * str)) : forall d, NoDup (map fst l) -> (forall k, In k (map fst l) -> ~ In k (dkeys d)) -> fold_left (fun d kv => dset (fst kv) (snd kv) d) l d = d ++ l.
Proof.
  induction l as [|[k v] l IH]; intros d N F; cbn [fold_left fst snd map] in *; [rewrite app_nil_r; reflexivity|]. inversion N as [|? ? N1 N2]; subst. rewrite dset_new by (apply F; left; reflexivity). rewrite IH.
  - rewrite <- app_assoc. reflexivity.
  - assumption.
  - intros k2 Hk X. unfold dkeys in X. rewrite map_app, in_app_iff in X. destruct X as [X|[X|[]]]; [exact (F k2 (or_intror Hk) X)|]. cbn [fst] in X. subst. contradiction.
Qed.
Lemma fst_combine {A B} (l : list A) : forall r : list B, List.length l = List.length r -> map fst (combine l r) = l.
Proof. induction l as [|x l IH]; intros [|y r] H; cbn in *; try discriminate; [reflexivity|]. f_equal. apply IH. lia. Qed.
Lemma portpair_combine names : NoDup names -> portpair names = combine names (rev names).
Proof.
  intros N. unfold portpair. assert (E : map fst (combine names (rev names)) = names) by (apply fst_combine; rewrite rev_length; reflexivity).
  rewrite fold_dset_new; [reflexivity|rewrite E; exact N|intros k _ []].
Qed.
Lemma nth_combine {A B} (l : list A) : forall (r : list B) i a b, nth_error l i = Some a -> nth_error r i = Some b -> nth_error (combine l r) i = Some (a, b).
Proof. induction l as [|x l IH]; intros [|y r] [|i] a b Ha Hb; cbn in *; try discriminate; [congruence|]. apply IH; assumption. Qed.
Lemma combine_nth_inv {A B} (l : list A) : forall (r : list B) a b, In (a, b) (combine l r) -> exists i, nth_error l i = Some a /\ nth_error r i = Some b.
Proof. induction l as [|x l IH]; intros [|y r] a b H; cbn in H; try contradiction. destruct H as [H|H]; [injection H as -> ->; exists O; auto|]. destruct (IH r a b H) as [i [? ?]]. exists (S i). auto. Qed.
Lemma portpair_get names a b : NoDup names -> dget a (portpair names) = Some b <-> exists i, nth_error names i = Some a /\ nth_error (rev names) i = Some b.
Proof.
  intros N. rewrite portpair_combine by exact N. split.
  - intros H. apply dget_In in H. apply combine_nth_inv. exact H.
  - intros (i & A & B). apply In_dget; [unfold dkeys; rewrite fst_combine by (rewrite rev_length; reflexivity); exact N|]. eapply nth_error_In. apply nth_combine; eauto.
Qed.
Lemma portpair_inj names a a' b : NoDup names -> dget a (portpair names) = Some b -> dget a' (portpair names) = Some b -> a = a'.
Proof.
  intros N H H'. apply portpair_get in H as (i & A & B); [|exact N]. apply portpair_get in H' as (j & A' & B'); [|exact N]. assert (Nr : NoDup (rev names)) by (apply NoDup_rev; exact N).
  assert (i = j); [|subst; congruence]. apply (proj1 (NoDup_nth_error (rev names)) Nr); [apply nth_error_Some; congruence|congruence].
Qed.
Lemma portpair_dom names a : NoDup names -> In a names -> exists b, dget a (portpair names) = Some b.
Proof.
  intros N H. apply In_nth_error in H as [i H]. destruct (nth_error (rev names) i) as [b|] eqn:B.
  - exists b. apply portpair_get; eauto.
  - exfalso. apply nth_error_None in B. rewrite rev_length in B. assert (nth_error names i <> None) by congruence. apply nth_error_Some in H0. lia.
Qed.

(** ** The forwarder against any network *)
Lemma carried_nil a b : carried a b []. Proof. split; [reflexivity|]. intros [|? ?] x post H; discriminate. Qed.
Lemma carried_one a b x : (forall r, x <> AnsRecv r) -> carried a b [(CRecv, x)].
Proof.
  intros H. split; [destruct x; try reflexivity; exfalso; eapply H; reflexivity|]. intros [|y [|z pre]] w post E; cbn [app] in E; [reflexivity|discriminate|discriminate].
Qed.
Lemma carried_skip a b x tr : (forall r, x <> AnsRecv r) -> carried a b tr -> carried a b ((CRecv, x) :: tr).
Proof.
  intros H [T1 T2]. assert (K : forall l, sent_to b ((CRecv, x) :: l) = sent_to b l /\ received_in ((CRecv, x) :: l) = received_in l) by (intros l; split; [reflexivity|destruct x; try reflexivity; exfalso; eapply H; reflexivity]).
  split; [destruct (K tr) as [-> ->]; exact T1|]. intros [|y pre] w post E; cbn [app] in E; [reflexivity|]. injection E as <- E. destruct (K pre) as [-> ->]. eapply T2. exact E.
Qed.
Lemma carried_pair a b r o s tr : (rv_dev r = a <-> o = b) -> carried a b tr -> carried a b ((CRecv, AnsRecv r) :: (CSend (DName o) (rv_pkt r), s) :: tr).
Proof.
  intros I [T1 T2]. assert (K : forall l, sent_to b l = packets_from a (received_in l) -> sent_to b ((CRecv, AnsRecv r) :: (CSend (DName o) (rv_pkt r), s) :: l) = packets_from a (received_in ((CRecv, AnsRecv r) :: (CSend (DName o) (rv_pkt r), s) :: l))).
  { intros l Hl. change (received_in ((CRecv, AnsRecv r) :: (CSend (DName o) (rv_pkt r), s) :: l)) with (r :: received_in l).
    change (sent_to b ((CRecv, AnsRecv r) :: (CSend (DName o) (rv_pkt r), s) :: l)) with ((if String.string_dec o b then [rv_pkt r] else []) ++ sent_to b l).
    unfold packets_from. cbn [flat_map]. fold (packets_from a (received_in l)). rewrite Hl. destruct (String.string_dec o b), (String.string_dec (rv_dev r) a); try reflexivity; exfalso; tauto. }
  split; [apply K; exact T1|]. intros [|y [|z pre]] w post E; cbn [app] in E; [reflexivity|discriminate|]. injection E as <- <- E. apply K. eapply T2. exact E.
Qed.
Lemma forwarder_carries names : NoDup names -> forall n tr e, talk (forwarder n names) tr e -> (forall r, In r (received_in tr) -> In (rv_dev r) names) ->
  forall a b, dget a (portpair names) = Some b -> carried a b tr.
Proof.
  intros N. induction n as [|n IH]; intros tr e T D a b G; [inversion T; subst; apply carried_nil|]. cbn [forwarder] in T. inversion T as [| |c k x tr0 e0 T0]; subst. destruct x as [r| |x].
  - assert (Dr : In (rv_dev r) names) by (apply D; left; reflexivity). destruct (portpair_dom names _ N Dr) as [o Go]. rewrite Go in T0. inversion T0 as [| |c k s tr1 e1 T1]; subst.
    assert (I : rv_dev r = a <-> o = b) by (split; [intros X; rewrite X in Go; congruence|intros ->; eapply portpair_inj; eauto]). apply carried_pair; [exact I|].
    destruct s as [r1| |x1]; [apply (IH tr1 e T1); [intros r2 H2; apply D; right; exact H2|exact G]..|inversion T1; subst; apply carried_nil].
  - inversion T0; subst. apply carried_one. discriminate.
  - destruct x; try (inversion T0; subst; apply carried_one; discriminate). apply carried_skip; [discriminate|]. apply (IH tr0 e T0); [exact D|exact G].
Qed.

(** ** Stopping *)
Lemma stops_raise e : stops_right [] (EndRaise e).
Proof. split; [split; [discriminate|intros [[|? ?] H]; discriminate]|intros [|? ?] c x post H; discriminate]. Qed.
Lemma stops_shutdown : stops_right [(CRecv, AnsExn EShutdown)] EndReturn.
Proof. split; [split; [intros _; exists []; reflexivity|reflexivity]|]. intros [|? [|? ?]] c x post H; cbn [app] in H; try discriminate. injection H as <- <- <-. auto. Qed.
Lemma stops_last c x : ~ (c = CRecv /\ x = EShutdown) -> stops_right [(c, AnsExn x)] (EndRaise x).
Proof.
  intros K. split; [split; [discriminate|]|].
  - intros [[|? [|? ?]] H]; cbn [app] in H; try discriminate. injection H as -> ->. exfalso. auto.
  - intros [|? [|? ?]] c0 x0 post H; cbn [app] in H; try discriminate. injection H as <- <- <-. right. split; [reflexivity|]. auto.
Qed.
Lemma stops_end c y e : (forall x, y <> AnsExn x) -> stops_right [(c, y)] (EndRaise e).
Proof.
  intros K. split; [split; [discriminate|]|].
  - intros [[|? [|? ?]] H]; cbn [app] in H; try discriminate. injection H as -> ->. exfalso. eapply K. reflexivity.
  - intros [|? [|? ?]] c0 x0 post H; cbn [app] in H; try discriminate. injection H as -> -> <-. exfalso. eapply K. reflexivity.
Qed.
Lemma stops_more c y tr e : (forall x, y = AnsExn x -> c = CRecv /\ x = ENoPackets) -> (tr <> [] \/ exists z, e = EndRaise z) -> stops_right tr e -> stops_right ((c, y) :: tr) e.
Proof.
  intros K L [S1 S2]. split.
  - rewrite S1. split; intros [pre H]; [exists ((c, y) :: pre); rewrite H; reflexivity|]. destruct pre as [|z pre]; cbn [app] in H; [|injection H as _ H; exists pre; exact H].
    injection H as -> -> ->. destruct (K _ eq_refl); discriminate.
  - intros [|z pre] c0 x0 post H; cbn [app] in H.
    + injection H as -> -> _. left. apply K. reflexivity.
    + injection H as _ H. eapply S2. exact H.
Qed.
Lemma talk_loop_nonempty k tr e : talk k tr e -> k <> Return -> tr <> [] \/ exists z, e = EndRaise z.
Proof. intros T H. destruct T as [|z|]; [contradiction|eauto|left; discriminate]. Qed.
Lemma forwarder_not_return n names : forwarder n names <> Return. Proof. destruct n; discriminate. Qed.
Lemma forwarder_stops names : forall n tr e, talk (forwarder n names) tr e -> stops_right tr e.
Proof.
  induction n as [|n IH]; intros tr e T; [inversion T; subst; apply stops_raise|]. cbn [forwarder] in T. inversion T as [| |c k x tr0 e0 T0]; subst. destruct x as [r| |x].
  - destruct (dget (rv_dev r) (portpair names)) as [o|]; [|inversion T0; subst; apply stops_end; discriminate]. inversion T0 as [| |c k s tr1 e1 T1]; subst.
    apply stops_more; [discriminate|left; discriminate|]. destruct s as [r1| |x1].
    1,2: (apply stops_more; [discriminate|eapply talk_loop_nonempty; [exact T1|apply forwarder_not_return]|apply IH; exact T1]).
    inversion T1; subst. apply stops_last. intros [X _]; discriminate.
  - inversion T0; subst. apply stops_end. discriminate.
  - destruct x; try (inversion T0; subst; apply stops_last; intros [_ X]; discriminate); [|inversion T0; subst; apply stops_shutdown].
    apply stops_more; [intros x E; injection E as <-; auto|eapply talk_loop_nonempty; [exact T0|apply forwarder_not_return]|apply IH; exact T0].
Qed.
Lemma sniffer_not_return n : sniffer n <> Return. Proof. destruct n; discriminate. Qed.
Lemma sniffer_talk : forall n tr e, talk (sniffer n) tr e -> stops_right tr e /\ (forall d p x, ~ In (CSend d p, x) tr).
Proof.
  induction n as [|n IH]; intros tr e T; [inversion T; subst; split; [apply stops_raise|intros d p x []]|]. cbn [sniffer] in T. inversion T as [| |c k x tr0 e0 T0]; subst.
  assert (Nx : forall d p y, (forall d p y, ~ In (CSend d p, y) tr0) -> ~ In (CSend d p, y) ((CRecv, x) :: tr0)) by (intros d p y H [X|X]; [discriminate|exact (H d p y X)]).
  assert (Nil : tr0 = [] -> forall d p y, ~ In (CSend d p, y) ((CRecv, x) :: tr0)) by (intros -> d p y; apply Nx; intros ? ? ? []).
  destruct x as [r| |x].
  - destruct (pkt_shows (rv_pkt r)); [|inversion T0; subst; split; [apply stops_end; discriminate|auto]]. destruct (IH _ _ T0) as [S F]. split; [|intros d p y; apply Nx; exact F].
    apply stops_more; [discriminate|eapply talk_loop_nonempty; [exact T0|apply sniffer_not_return]|exact S].
  - inversion T0; subst. split; [apply stops_end; discriminate|auto].
  - destruct x; try (inversion T0; subst; split; [apply stops_last; intros [_ X]; discriminate|auto]; fail); [|inversion T0; subst; split; [apply stops_shutdown|auto]].
    destruct (IH _ _ T0) as [S F]. split; [|intros d p y; apply Nx; exact F].
    apply stops_more; [intros x E; injection E as <-; auto|eapply talk_loop_nonempty; [exact T0|apply sniffer_not_return]|exact S].
Qed.

(** ** On a test network *)
Lemma play_forwarder ifs a b es : wire_script a b es -> a <> b -> dkeys ifs = [a; b] -> (forall k i, In (k, i) ifs -> if_name i = k) -> forall pend n t, map sv_ev pend = es -> Forall (fun x => prt (sv_ev x)) pend ->
  (forall d p q, In (EvIn d p) es -> reads_as p q -> printable q) -> (List.length es < n)%nat -> state t ifs pend ->
  exists t' tr, play t (forwarder n [a; b]) = (t', tr, EndReturn) /\ state t' ifs [].
Proof.
  intros H Ab Dk TK. assert (N : NoDup [a; b]) by (constructor; [intros [X|[]]; congruence|constructor; [intros []|constructor]]).
  assert (PA : dget a (portpair [a; b]) = Some b) by (apply portpair_get; [exact N|exists O; auto]). assert (PB : dget b (portpair [a; b]) = Some a) by (apply portpair_get; [exact N|exists (S O); auto]).
  remember (portpair [a; b]) as D eqn:ED.
  induction H as [|w es H IH|dev out p q m es Hd R M H IH]; intros pend n t E Pr Pq L S; (destruct n as [|n]; [cbn in L; lia|]); cbn [forwarder play]; rewrite <- ?ED.
  - destruct pend; [|discriminate]. destruct S as (Ep & Ei & Sh). assert (C : do_call t CRecv = (t, AnsExn EShutdown)) by (cbn [do_call]; unfold t_recv; rewrite Ep; reflexivity). rewrite C. cbn [play]. do 2 eexists. split; [reflexivity|]. repeat split; auto.
  - destruct pend as [|e pend]; [discriminate|]. cbn [map] in E. injection E as E1 E2. inversion Pr as [|? ? Pe Pr2]; subst es. destruct (recv_wait t ifs e pend w S E1 Pr2) as (t1 & C & S1). rewrite C.
    destruct (IH pend n t1 eq_refl Pr2) as (t2 & tr & P2 & S2); [intros d p q Hi; apply (Pq d p q); right; exact Hi|cbn [List.length] in L; lia|exact S1|]. rewrite P2. eauto.
  - destruct pend as [|e [|e2 pend]]; [discriminate..|]. cbn [map] in E. injection E as E1 E2 E3. inversion Pr as [|? ? Pe Pr2]; subst. inversion Pr2 as [|? ? Pe2 Pr3]; subst.
    assert (Hin : In dev (dkeys ifs)) by (rewrite Dk; destruct Hd as [[-> _]|[-> _]]; cbn [In]; auto).
    assert (Hout : In out (dkeys ifs)) by (rewrite Dk; destruct Hd as [[_ ->]|[_ ->]]; cbn [In]; auto).
    destruct (recv_input t ifs e (e2 :: pend) dev p q S E1 Pe Pr2 R Hin) as (t1 & C & S1). rewrite C. cbn [rv_pkt rv_dev].
    assert (Q : printable q) by (apply (Pq dev p q); [left; reflexivity|exact R]).
    assert (Gd : dget dev (portpair [a; b]) = Some out) by (destruct Hd as [[-> ->]|[-> ->]]; assumption). rewrite Gd. cbn [play].
    unfold dkeys in Hout. apply in_map_iff in Hout as ([k i] & Ek & Hi). cbn [fst] in Ek. subst k. pose proof (TK _ _ Hi) as Ni.
    rewrite E2 in Pe2. destruct (send_one t1 ifs e2 pend (mkOut [(out, m)] []) i q m S1 E2 (proj1 Pe2) Pr3 Q) as (t2 & o' & C2 & W & V & S2).
    { cbn [oe_wait dget]. rewrite Ni, str_eqb_refl. reflexivity. }
    { exact M. }
    change (do_call t1 (CSend (DIface i) q)) with (do_call t1 (CSend (DName (if_name i)) q)) in C2. rewrite Ni in C2. rewrite C2. cbn [oe_wait ddel] in W. rewrite Ni, str_eqb_refl in W. rewrite W in S2.
    cbn [List.length] in L. destruct (IH pend n t2 eq_refl Pr3) as (t3 & tr3 & P3 & S3); [intros d p0 q0 Hi0; apply (Pq d p0 q0); right; right; exact Hi0|lia|exact S2|]. rewrite P3. eauto.
Qed.
Lemma play_sniffer ifs es : quiet_script (dkeys ifs) es -> forall pend n t, map sv_ev pend = es -> Forall (fun x => prt (sv_ev x)) pend ->
  (forall d p q, In (EvIn d p) es -> reads_as p q -> printable q) -> (List.length es < n)%nat -> state t ifs pend ->
  exists t' tr, play t (sniffer n) = (t', tr, EndReturn) /\ state t' ifs [].
Proof.
  induction 1 as [|w es H IH|dev p q es Hd R H IH]; intros pend n t E Pr Pq L S; (destruct n as [|n]; [cbn in L; lia|]); cbn [sniffer play].
  - destruct pend; [|discriminate]. destruct S as (Ep & Ei & Sh). assert (C : do_call t CRecv = (t, AnsExn EShutdown)) by (cbn [do_call]; unfold t_recv; rewrite Ep; reflexivity). rewrite C. cbn [play]. do 2 eexists. split; [reflexivity|]. repeat split; auto.
  - destruct pend as [|e pend]; [discriminate|]. cbn [map] in E. injection E as E1 E2. inversion Pr as [|? ? Pe Pr2]; subst. destruct (recv_wait t ifs e pend w S E1 Pr2) as (t1 & C & S1). rewrite C.
    destruct (IH pend n t1 eq_refl Pr2) as (t2 & tr & P2 & S2); [intros d p q Hi; apply (Pq d p q); right; exact Hi|cbn [List.length] in L; lia|exact S1|]. rewrite P2. eauto.
  - destruct pend as [|e pend]; [discriminate|]. cbn [map] in E. injection E as E1 E2. inversion Pr as [|? ? Pe Pr2]; subst.
    destruct (recv_input t ifs e pend dev p q S E1 Pe Pr2 R Hd) as (t1 & C & S1). rewrite C. cbn [rv_pkt].
    assert (Q : pkt_shows q = true) by (apply pkt_prints, (Pq dev p q); [left; reflexivity|exact R]). rewrite Q.
    destruct (IH pend n t1 eq_refl Pr2) as (t2 & tr & P2 & S2); [intros d p0 q0 Hi; apply (Pq d p0 q0); right; exact Hi|cbn [List.length] in L; lia|exact S1|]. rewrite P2. eauto.
Qed.

(** ** The switch does what the hub does *)
Definition as_name (x : call * answer) : call * answer := match x with (CSend (DIface i) p, a) => (CSend (DName (if_name i)) p, a) | _ => x end.
Definition as_iface (ifs : list iface) (n : str) (i : iface) : Prop := In i ifs /\ if_name i = n.
Lemma as_name_recv tr : received_in (map as_name tr) = received_in tr.
Proof. induction tr as [|[[|[n|k|i] p] [r| |x]] tr IH]; cbn [map as_name] in *; unfold received_in in *; cbn [flat_map]; rewrite ?IH; reflexivity. Qed.
Lemma as_name_sent nm tr : sent_to nm (map as_name tr) = sent_to nm tr.
Proof. induction tr as [|[[|[n|k|i] p] a] tr IH]; cbn [map as_name] in *; unfold sent_to in *; cbn [flat_map]; rewrite ?IH; reflexivity. Qed.
Lemma get_first e rest : pkt_get_header (HEth e :: rest) CEth = Some (HEth e). Proof. reflexivity. Qed.
Lemma flood_names_talk dev p k k' l : (forall tr e, talk k' tr e -> (forall r, In r (received_in tr) -> starts_eth (rv_pkt r)) -> exists tr2, tr = map as_name tr2 /\ talk k tr2 e) ->
  forall tr e, talk (flood_names l dev p k') tr e -> (forall r, In r (received_in tr) -> starts_eth (rv_pkt r)) -> exists tr2, tr = map as_name tr2 /\ talk (flood l dev p k) tr2 e.
Proof.
  intros K. induction l as [|i l IH]; intros tr e T P; cbn [flood_names flood] in *; [apply K; assumption|]. destruct (str_eqb dev (if_name i)); [apply IH; assumption|].
  inversion T as [| |c k0 a tr0 e0 T0]; subst. assert (P0 : forall r, In r (received_in tr0) -> starts_eth (rv_pkt r)) by (intros r Hr; apply P; exact Hr). destruct a as [r| |x].
  - destruct (IH _ _ T0 P0) as (tr2 & -> & T2). exists ((CSend (DIface i) p, AnsRecv r) :: tr2). split; [reflexivity|]. constructor. exact T2.
  - destruct (IH _ _ T0 P0) as (tr2 & -> & T2). exists ((CSend (DIface i) p, AnsSent) :: tr2). split; [reflexivity|]. constructor. exact T2.
  - inversion T0; subst. exists [(CSend (DIface i) p, AnsExn x)]. split; [reflexivity|]. constructor. constructor.
Qed.
Lemma switch_talk ifs : forall n tr e, talk (switch n ifs) tr e -> (forall r, In r (received_in tr) -> starts_eth (rv_pkt r)) -> exists tr2, tr = map as_name tr2 /\ talk (hub n ifs) tr2 e.
Proof.
  induction n as [|n IH]; intros tr e T P; [inversion T; subst; exists []; split; [reflexivity|constructor]|]. cbn [switch] in T. inversion T as [| |c k a tr0 e0 T0]; subst.
  destruct (hub_step n ifs) as (k & E & K1 & K2 & K3 & K4 & K5). rewrite E.
  assert (One : forall x, tr0 = [] -> k a = Raise x -> e = EndRaise x -> exists tr2, (CRecv, a) :: tr0 = map as_name tr2 /\ talk (Call CRecv k) tr2 e).
  { intros x -> Hk ->. exists [(CRecv, a)]. split; [reflexivity|]. constructor. rewrite Hk. constructor. }
  assert (More : (exists tr2, tr0 = map as_name tr2 /\ talk (k a) tr2 e) -> exists tr2, (CRecv, a) :: tr0 = map as_name tr2 /\ talk (Call CRecv k) tr2 e).
  { intros (tr2 & -> & T2). exists ((CRecv, a) :: tr2). split; [reflexivity|]. constructor. exact T2. }
  destruct a as [r| |x].
  - destruct (P r (or_introl eq_refl)) as (et & rest & Er). assert (P0 : forall r0, In r0 (received_in tr0) -> starts_eth (rv_pkt r0)) by (intros r0 Hr; apply P; right; exact Hr).
    pose proof (K1 r) as Kr. unfold after_recv, keep_out in Kr. rewrite Er, get_first in Kr. rewrite Er in T0. destruct (pkt_shows (HEth et :: rest)).
    + apply More. rewrite Kr. destruct (existsb _ _); cbn [negb]; [apply IH; assumption|]. eapply flood_names_talk; [exact (IH)|exact T0|exact P0].
    + inversion T0; subst. eapply One; eauto.
  - inversion T0; subst. eapply One; eauto.
  - destruct x; try (inversion T0; subst; eapply One; eauto; apply K5; discriminate).
    + apply More. rewrite K2. apply IH; [exact T0|]. exact P.
    + inversion T0; subst. exists [(CRecv, AnsExn EShutdown)]. split; [reflexivity|]. constructor. rewrite K3. constructor.
Qed.
(** Every packet received on a test network is one of the script, read back. *)
Definition comes (es : list event) (q : packet) : Prop := exists d p, In (EvIn d p) es /\ reads_as p q.
Lemma generate_reads d p s d2 q : generate (EvIn d p) s = Ok (d2, q) -> reads_as p q.
Proof.
  cbn [generate]. unfold reads_as. destruct (pkt_to_bytes p) as [[p' b]|]; cbn [bindr]; [|discriminate]. destruct (pkt_new b (first_cls p)) as [q'|] eqn:Q; cbn [bindr]; [|discriminate]. destruct (din d (sc_ifs s)); [|discriminate]. intros H. injection H as <- <-. exists p', b. auto.
Qed.
Lemma testpass_pend e rest s s' r : testpass e rest s = (s', r) -> sc_pend s' = rest.
Proof. unfold testpass. destruct (ev_shows (sv_ev e)); intros H; injection H as <- _; reflexivity. Qed.
Lemma call_pend t c t1 a : do_call t c = (t1, a) -> (forall d p, In (EvIn d p) (map sv_ev (sc_pend (t_scen t1))) -> In (EvIn d p) (map sv_ev (sc_pend (t_scen t)))) /\
  (forall r, c = CRecv -> a = AnsRecv r -> comes (map sv_ev (sc_pend (t_scen t))) (rv_pkt r)).
Proof.
  destruct c as [|dv p]; cbn [do_call].
  - unfold t_recv. destruct (sc_pend (t_scen t)) as [|e rest] eqn:Ep; [intros H; injection H as <- <-; rewrite Ep; split; [auto|discriminate]|].
    destruct (sv_ev e) as [d p|w|o] eqn:Ee.
    3: intros H; injection H as <- <-; rewrite Ep; split; [auto|discriminate].
    all: destruct (testpass e rest (t_scen t)) as [s' r] eqn:Tp; apply testpass_pend in Tp.
    all: destruct r as [u|x]; [|intros H; injection H as <- <-; cbn [t_scen]; rewrite Tp; split; [intros d0 p0 H0; right; exact H0|discriminate]].
    + destruct (generate (EvIn d p) s') as [[d2 q]|x] eqn:G; intros H; injection H as <- <-; cbn [t_scen with_queue sc_pend]; rewrite Tp; (split; [intros d0 p0 H0; right; exact H0|]); [|discriminate].
      intros r _ Er. injection Er as <-. cbn [rv_pkt]. exists d, p. split; [left; exact Ee|]. eapply generate_reads. exact G.
    + cbn [generate]. intros H; injection H as <- <-; cbn [t_scen with_queue sc_pend]; rewrite Tp. split; [intros d0 p0 H0; right; exact H0|discriminate].
  - unfold t_send. destruct (sc_pend (t_scen t)) as [|e rest] eqn:Ep; [intros H; injection H as <- <-; rewrite Ep; split; [auto|discriminate]|].
    destruct (dev_name dv (t_scen t)) as [dev|x]; [|intros H; injection H as <- <-; rewrite Ep; split; [auto|discriminate]].
    destruct (sv_ev e) as [d0 p0|w|o] eqn:Ee; try (intros H; injection H as <- <-; rewrite Ep; split; [auto|discriminate]; fail).
    destruct (out_match o dev p) as [o' r]. assert (Hd : forall d1 p1, In (EvIn d1 p1) (map sv_ev (mkSev (EvOut o') (sv_desc e) (sv_time e) :: rest)) -> In (EvIn d1 p1) (map sv_ev (e :: rest))).
    { intros d1 p1 [X|X]; [discriminate|right; exact X]. }
    destruct r as [[]|x]; try (intros H; injection H as <- <-; cbn [t_scen with_head sc_pend]; split; [exact Hd|discriminate]).
    destruct (testpass _ rest (t_scen t)) as [s' r] eqn:Tp. apply testpass_pend in Tp. destruct r; intros H; injection H as <- <-; cbn [t_scen]; rewrite Tp; (split; [intros d1 p1 H1; right; exact H1|discriminate]).
Qed.
Lemma flood_names_play dev p k k' l : (forall t, (forall q, comes (map sv_ev (sc_pend (t_scen t))) q -> starts_eth q) -> forall t' tr e, play t k = (t', tr, e) -> play t k' = (t', map as_name tr, e)) ->
  forall t, (forall q, comes (map sv_ev (sc_pend (t_scen t))) q -> starts_eth q) -> forall t' tr e, play t (flood l dev p k) = (t', tr, e) -> play t (flood_names l dev p k') = (t', map as_name tr, e).
Proof.
  intros K. induction l as [|i l IH]; intros t P t' tr e T; cbn [flood_names flood] in *; [eapply K; eauto|]. destruct (str_eqb dev (if_name i)); [eapply IH; eauto|].
  cbn [play] in *. change (do_call t (CSend (DName (if_name i)) p)) with (do_call t (CSend (DIface i) p)). destruct (do_call t (CSend (DIface i) p)) as [t1 a] eqn:C. apply call_pend in C as [C _].
  assert (P1 : forall q, comes (map sv_ev (sc_pend (t_scen t1))) q -> starts_eth q) by (intros q (d & p0 & Hi & R); apply P; exists d, p0; auto).
  destruct a as [r| |x]; [| |cbn [play] in *; injection T as <- <- <-; reflexivity].
  all: destruct (play t1 (flood l dev p k)) as [[t2 tr2] e2] eqn:F; injection T as <- <- <-; rewrite (IH t1 P1 _ _ _ F); reflexivity.
Qed.
Lemma switch_play ifs : forall n t, (forall q, comes (map sv_ev (sc_pend (t_scen t))) q -> starts_eth q) -> forall t' tr e, play t (hub n ifs) = (t', tr, e) -> play t (switch n ifs) = (t', map as_name tr, e).
Proof.
  induction n as [|n IH]; intros t P t' tr e T; [cbn [hub switch play] in *; injection T as <- <- <-; reflexivity|].
  destruct (hub_step n ifs) as (k & E & K1 & K2 & K3 & K4 & K5). rewrite E in T. cbn [switch play] in *. destruct (do_call t CRecv) as [t1 a] eqn:C. apply call_pend in C as [C1 C2].
  assert (P1 : forall q, comes (map sv_ev (sc_pend (t_scen t1))) q -> starts_eth q) by (intros q (d & p0 & Hi & R); apply P; exists d, p0; auto).
  destruct a as [r| |x].
  - destruct (P _ (C2 r eq_refl eq_refl)) as (et & rest & Er). rewrite K1 in T. unfold after_recv, keep_out in T. rewrite Er, get_first in T. rewrite Er. destruct (pkt_shows (HEth et :: rest)); [|cbn [play] in *; injection T as <- <- <-; reflexivity].
    destruct (existsb _ _); cbn [negb] in T.
    + destruct (play t1 (hub n ifs)) as [[t2 tr2] e2] eqn:F. injection T as <- <- <-. rewrite (IH t1 P1 _ _ _ F). reflexivity.
    + destruct (play t1 (flood _ _ _ _)) as [[t2 tr2] e2] eqn:F. injection T as <- <- <-. erewrite flood_names_play; [reflexivity|exact IH|exact P1|exact F].
  - rewrite K4 in T. cbn [play] in *. injection T as <- <- <-. reflexivity.
  - destruct x; try (rewrite K5 in T by discriminate; cbn [play] in *; injection T as <- <- <-; reflexivity).
    + rewrite K2 in T. destruct (play t1 (hub n ifs)) as [[t2 tr2] e2] eqn:F. injection T as <- <- <-. rewrite (IH t1 P1 _ _ _ F). reflexivity.
    + rewrite K3 in T. cbn [play] in *. injection T as <- <- <-. reflexivity.
Qed.
