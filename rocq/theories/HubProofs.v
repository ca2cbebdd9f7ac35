(** Proofs about the hub. *)
From Verif Require Import BaseLemmas CodecLemmas Dict DictLemmas EthAddrModel EthAddrProofs EthModel PacketModel PacketProofs NetModel NetProofs TestModel TestSpec TestMatch TestRun HubModel HubSpec.
#[local] Open Scope list_scope.

(** ** Which frames are passed on *)
Definition keep_out (ifs : list iface) (p : packet) : bool :=
  match pkt_get_header p CEth with
  | Some (HEth e) => negb (existsb (fun m => bytes_eqb (eth_dst e) m) (map if_mac ifs))
  | _ => false
  end.
Lemma get_eth p h : pkt_get_header p CEth = Some h <-> exists e pre post, h = HEth e /\ p = pre ++ HEth e :: post /\ forall x, ~ In (HEth x) pre.
Proof.
  induction p as [|y p IH]; cbn [pkt_get_header].
  - split; [discriminate|]. intros (e & pre & post & _ & E & _). destruct pre; discriminate.
  - destruct (isinst y CEth) eqn:I.
    + assert (K : exists e, y = HEth e) by (destruct y; try discriminate I; eauto). destruct K as [e ->]. split.
      * intros [= <-]. exists e, [], p. repeat split. intros x [].
      * intros (e' & pre & post & -> & E & N). destruct pre as [|z pre]; cbn [app] in E; injection E as E1 E2; [congruence|]. subst z. exfalso. apply (N e). left. reflexivity.
    + rewrite IH. split.
      * intros (e & pre & post & -> & -> & N). exists e, (y :: pre), post. repeat split. intros x [X|X]; [subst y; discriminate I|exact (N x X)].
      * intros (e & pre & post & -> & E & N). destruct pre as [|z pre]; cbn [app] in E; injection E as E1 E2; [subst y; discriminate I|]. subst. exists e, pre, post. repeat split. intros x X. apply (N x). right. exact X.
Qed.
Lemma keep_out_iff ifs p : keep_out ifs p = true <-> passes_on ifs p.
Proof.
  unfold keep_out. split.
  - destruct (pkt_get_header p CEth) as [h|] eqn:G; [|discriminate]. apply get_eth in G as (e & pre & post & -> & E & N). intros H. apply negb_true_iff in H.
    exists pre, e, post. split; [exact E|]. split; [exact N|]. intros i Hi X. rewrite <- not_true_iff_false in H. apply H. apply existsb_exists. exists (if_mac i). split; [apply in_map; exact Hi|]. apply bytes_eqb_eq. exact X.
  - intros (pre & e & post & E & N & M). assert (G : pkt_get_header p CEth = Some (HEth e)) by (apply get_eth; eauto 8). rewrite G. apply negb_true_iff. apply not_true_iff_false. intros X. apply existsb_exists in X as (m & Hm & X).
    apply in_map_iff in Hm as (i & <- & Hi). apply bytes_eqb_eq in X. exact (M i Hi X).
Qed.
Definition after_recv (n : nat) (ifs : list iface) (r : recvd) : prog :=
  if pkt_shows (rv_pkt r) then if keep_out ifs (rv_pkt r) then flood ifs (rv_dev r) (rv_pkt r) (hub n ifs) else hub n ifs else Raise EAttr.
Lemma hub_step n ifs : exists k, hub (S n) ifs = Call CRecv k /\ (forall r, k (AnsRecv r) = after_recv n ifs r) /\ k (AnsExn ENoPackets) = hub n ifs /\ k (AnsExn EShutdown) = Return /\ k AnsSent = Raise EType /\
  forall e, e <> ENoPackets -> e <> EShutdown -> k (AnsExn e) = Raise e.
Proof.
  eexists. split; [reflexivity|]. split; [|repeat split; try reflexivity; intros [] A B; try reflexivity; contradiction].
  intros r. cbn beta iota zeta. unfold after_recv, keep_out. destruct (pkt_shows (rv_pkt r)); [|reflexivity]. destruct (pkt_get_header (rv_pkt r) CEth) as [[]|]; try reflexivity. destruct (existsb _ _); reflexivity.
Qed.

(** ** Against any network *)
Lemma recv_app a b : received_in (a ++ b) = received_in a ++ received_in b. Proof. apply flat_map_app. Qed.
Lemma sent_app nm a b : sent_to nm (a ++ b) = sent_to nm a ++ sent_to nm b. Proof. apply flat_map_app. Qed.
Lemma flood_talk dev p k l : forall tr e, NoDup (map if_name l) -> talk (flood l dev p k) tr e ->
  exists pre tr2, tr = pre ++ tr2 /\ received_in pre = [] /\
    ((talk k tr2 e /\ forall name, In name (map if_name l) /\ dev <> name /\ sent_to name pre = [p] \/ (~ In name (map if_name l) \/ dev = name) /\ sent_to name pre = []) \/
     (tr2 = [] /\ (exists x, e = EndRaise x) /\ (exists d q x, In (CSend d q, AnsExn x) pre) /\ forall name, sent_to name pre = [] \/ sent_to name pre = [p] /\ dev <> name /\ In name (map if_name l))).
Proof.
  induction l as [|i l IH]; intros tr e N T; cbn [flood map] in *.
  - exists [], tr. split; [reflexivity|]. split; [reflexivity|]. left. split; [exact T|]. intros name. right. split; [left; intros []|reflexivity].
  - inversion N as [|? ? N1 N2]; subst. destruct (str_spec dev (if_name i)) as [E|E].
    + destruct (IH tr e N2 T) as (pre & tr2 & E1 & E2 & [[E3 E4]|(E3 & E4 & E6 & E5)]); exists pre, tr2; (split; [exact E1|]); (split; [exact E2|]).
      * left. split; [exact E3|]. intros name. destruct (E4 name) as [(A & B & C)|[[A|A] C]]; [left; split; [right; exact A|]; auto| |right; auto].
        right. split; [|exact C]. destruct (String.string_dec dev name); [auto|]. left. intros [X|X]; [congruence|contradiction].
      * right. split; [exact E3|]. split; [exact E4|]. split; [exact E6|]. intros name. destruct (E5 name) as [A|(A & B & C)]; [auto|]. right. split; [exact A|]. split; [exact B|right; exact C].
    + inversion T as [| |c k0 a tr0 e0 T0]; subst.
      assert (S : forall name, sent_to name [(CSend (DIface i) p, a)] = if String.string_dec (if_name i) name then [p] else []).
      { intros name. unfold sent_to. cbn [flat_map]. rewrite app_nil_r. reflexivity. }
      assert (R : received_in [(CSend (DIface i) p, a)] = []) by reflexivity.
      assert (Fin : forall x, a = AnsExn x -> exists pre tr2, (CSend (DIface i) p, a) :: tr0 = pre ++ tr2 /\ received_in pre = [] /\
        ((talk k tr2 e /\ forall name, (if_name i = name \/ In name (map if_name l)) /\ dev <> name /\ sent_to name pre = [p] \/ (~ (if_name i = name \/ In name (map if_name l)) \/ dev = name) /\ sent_to name pre = []) \/
         (tr2 = [] /\ (exists x, e = EndRaise x) /\ (exists d q x, In (CSend d q, AnsExn x) pre) /\ forall name, sent_to name pre = [] \/ sent_to name pre = [p] /\ dev <> name /\ (if_name i = name \/ In name (map if_name l))))).
      { intros x ->. inversion T0; subst. exists [(CSend (DIface i) p, AnsExn x)], []. split; [reflexivity|]. split; [exact R|]. right. split; [reflexivity|]. split; [eauto|]. split; [do 3 eexists; left; reflexivity|]. intros name. rewrite S.
        destruct (String.string_dec (if_name i) name) as [X|X]; [right|auto]. split; [reflexivity|]. split; [congruence|auto]. }
      assert (Go : talk (flood l dev p k) tr0 e -> exists pre tr2, (CSend (DIface i) p, a) :: tr0 = pre ++ tr2 /\ received_in pre = [] /\
        ((talk k tr2 e /\ forall name, (if_name i = name \/ In name (map if_name l)) /\ dev <> name /\ sent_to name pre = [p] \/ (~ (if_name i = name \/ In name (map if_name l)) \/ dev = name) /\ sent_to name pre = []) \/
         (tr2 = [] /\ (exists x, e = EndRaise x) /\ (exists d q x, In (CSend d q, AnsExn x) pre) /\ forall name, sent_to name pre = [] \/ sent_to name pre = [p] /\ dev <> name /\ (if_name i = name \/ In name (map if_name l))))).
      { intros T1. destruct (IH tr0 e N2 T1) as (pre & tr2 & E1 & E2 & E3). exists ((CSend (DIface i) p, a) :: pre), tr2. split; [rewrite E1; reflexivity|].
        change ((CSend (DIface i) p, a) :: pre) with ([(CSend (DIface i) p, a)] ++ pre). rewrite recv_app, R, E2. split; [reflexivity|].
        destruct E3 as [[E3 E4]|(E3 & E4 & (d6 & q6 & x6 & E6) & E5)].
        - left. split; [exact E3|]. intros name. rewrite sent_app, S. destruct (String.string_dec (if_name i) name) as [X|X].
          + subst name. left. split; [auto|]. split; [exact E|]. destruct (E4 (if_name i)) as [(A & _)|[_ A]]; [contradiction|rewrite A; reflexivity].
          + destruct (E4 name) as [(A & B & C)|[A C]]; [left; auto|right; split; [|exact C]]. destruct A as [A|A]; [left; intros [?|?]; contradiction|auto].
        - right. split; [exact E3|]. split; [exact E4|]. split; [exists d6, q6, x6; right; exact E6|]. intros name. rewrite sent_app, S. destruct (String.string_dec (if_name i) name) as [X|X].
          + subst name. right. split; [|auto]. destruct (E5 (if_name i)) as [A|(_ & _ & A)]; [rewrite A; reflexivity|contradiction].
          + destruct (E5 name) as [A|(A & B & C)]; [left; exact A|right; auto]. }
      destruct a as [r| |x]; [exact (Go T0)|exact (Go T0)|exact (Fin x eq_refl)].
Qed.
Lemma hub_floods ifs name : NoDup (map if_name ifs) -> In name (map if_name ifs) -> forall n tr e, talk (hub n ifs) tr e -> (forall r, In r (received_in tr) -> printable (rv_pkt r)) ->
  exists missing, to_send ifs name (received_in tr) (sent_to name tr ++ missing) /\ (List.length missing <= 1)%nat /\ (e = EndReturn \/ (forall d q x, ~ In (CSend d q, AnsExn x) tr) -> missing = []).
Proof.
  intros N In1. induction n as [|n IH]; intros tr e T P.
  - inversion T; subst. exists []. split; [constructor|]. auto.
  - destruct (hub_step n ifs) as (k & E & K1 & K2 & K3 & K4 & K5). rewrite E in T. inversion T as [| |c k0 a tr0 e0 T0]; subst. clear T E.
    assert (Nil : exists missing, to_send ifs name (received_in []) (sent_to name [] ++ missing) /\ (List.length missing <= 1)%nat /\ (e = EndReturn \/ (forall d q x, ~ In (CSend d q, AnsExn x) ((CRecv, a) :: tr0)) -> missing = [])) by (exists []; split; [constructor|auto]).
    destruct a as [r| |x].
    + rewrite K1 in T0. unfold after_recv in T0. assert (Pr : pkt_shows (rv_pkt r) = true) by (apply pkt_prints, P; left; reflexivity). rewrite Pr in T0.
      assert (P0 : forall r0, In r0 (received_in tr0) -> printable (rv_pkt r0)) by (intros r0 H0; apply P; right; exact H0).
      change (received_in ((CRecv, AnsRecv r) :: tr0)) with (r :: received_in tr0). change (sent_to name ((CRecv, AnsRecv r) :: tr0)) with (sent_to name tr0).
      destruct (keep_out ifs (rv_pkt r)) eqn:Ko.
      * apply keep_out_iff in Ko. destruct (flood_talk _ _ _ _ _ _ N T0) as (pre & tr2 & E1 & E2 & [[E3 E4]|(E3 & [x E4] & (d6 & q6 & x6 & E6) & E5)]).
        -- subst tr0. rewrite recv_app, E2 in *. cbn [app] in *. destruct (IH tr2 e E3 P0) as (mi & M1 & M2 & M3). exists mi. split; [|split; [exact M2|]; intros [X|X]; apply M3; [auto|right; intros d q x Y; apply (X d q x); right; apply in_or_app; right; exact Y]]. rewrite sent_app. destruct (E4 name) as [(A & B & C)|[A C]]; rewrite C; cbn [app].
           ++ apply ts_pass; auto.
           ++ apply ts_not; [|exact M1]. left. destruct A as [A|A]; [contradiction|exact A].
        -- subst tr0 tr2 e. rewrite app_nil_r in *. rewrite E2. destruct (String.string_dec (rv_dev r) name) as [D|D].
           ++ destruct (E5 name) as [A|(_ & A & _)]; [|contradiction]. rewrite A. exists []. split; [apply ts_not; [auto|constructor]|]. split; [cbn; lia|auto].
           ++ destruct (E5 name) as [A|(A & _)]; rewrite A.
              ** exists [rv_pkt r]. split; [apply ts_pass; auto; constructor|]. split; [cbn; lia|]. intros [X|X]; [discriminate|]. exfalso. apply (X d6 q6 x6). right. exact E6.
              ** exists []. split; [apply ts_pass; auto; constructor|]. split; [cbn; lia|auto].
      * destruct (IH tr0 e T0 P0) as (mi & M1 & M2 & M3). exists mi. split; [|split; [exact M2|]; intros [X|X]; apply M3; [auto|right; intros d q x Y; apply (X d q x); right; exact Y]]. apply ts_not; [|exact M1]. right. rewrite <- keep_out_iff. congruence.
    + rewrite K4 in T0. inversion T0; subst. exact Nil.
    + destruct x; try (rewrite K5 in T0 by discriminate; inversion T0; subst; exact Nil).
      * rewrite K2 in T0. destruct (IH tr0 e T0 P) as (mi & M1 & M2 & M3). exists mi. split; [exact M1|]. split; [exact M2|]. intros [X|X]; apply M3; [auto|right; intros d q x Y; apply (X d q x); right; exact Y].
      * rewrite K3 in T0. inversion T0; subst. exact Nil.
Qed.

(** ** On a test network *)
Definition shown (s : scen) : Prop := Forall (fun e => ev_shows (sv_ev e) = true) (sc_done s).
Definition state (t : tnet) (ifs : devinfo) (pend : list sev) : Prop := sc_pend (t_scen t) = pend /\ sc_ifs (t_scen t) = ifs /\ shown (t_scen t).
Lemma recv_input t ifs e rest d p q : state t ifs (e :: rest) -> sv_ev e = EvIn d p -> prt (sv_ev e) -> Forall (fun x => prt (sv_ev x)) rest -> reads_as p q -> In d (dkeys ifs) ->
  exists t1, do_call t CRecv = (t1, AnsRecv (mkRecv (t_time t) d q)) /\ state t1 ifs rest.
Proof.
  intros (Ep & Ei & Sh) E [P1 P2] Pr (p' & b & B1 & B2) Hd. cbn [do_call]. unfold t_recv. rewrite Ep. pose proof (testpass_ok e rest (t_scen t) P1 Pr) as TP. rewrite E in *. rewrite TP. cbn [generate with_queue sc_ifs]. rewrite B1. cbn [bindr]. rewrite B2. cbn [bindr].
  rewrite Ei. apply din_iff in Hd. rewrite Hd. eexists. split; [reflexivity|]. unfold state, shown. cbn [t_scen with_queue sc_pend sc_ifs sc_done]. split; [reflexivity|]. split; [exact Ei|]. rewrite on_last_app. apply Forall_app. split; [exact Sh|]. constructor; [|constructor].
  unfold sev_reread. cbn [sv_ev]. rewrite E. exact P2.
Qed.
Lemma recv_wait t ifs e rest n : state t ifs (e :: rest) -> sv_ev e = EvTimeout n -> Forall (fun x => prt (sv_ev x)) rest ->
  exists t1, do_call t CRecv = (t1, AnsExn ENoPackets) /\ state t1 ifs rest.
Proof.
  intros (Ep & Ei & Sh) E Pr. cbn [do_call]. unfold t_recv. rewrite Ep. assert (P1 : ev_shows (sv_ev e) = true) by (rewrite E; reflexivity). pose proof (testpass_ok e rest (t_scen t) P1 Pr) as TP. rewrite E in *. rewrite TP. cbn [generate].
  eexists. split; [reflexivity|]. unfold state, shown. cbn [t_scen with_queue sc_pend sc_ifs sc_done]. split; [reflexivity|]. split; [exact Ei|]. rewrite on_last_app. apply Forall_app. split; [exact Sh|]. constructor; [|constructor].
  unfold sev_reread. cbn [sv_ev]. rewrite E. reflexivity.
Qed.
Lemma send_one t ifs e rest o i p m : state t ifs (e :: rest) -> sv_ev e = EvOut o -> ev_shows (EvOut o) = true -> Forall (fun x => prt (sv_ev x)) rest -> printable p ->
  dget (if_name i) (oe_wait o) = Some m -> meets m p ->
  exists t1 o', do_call t (CSend (DIface i) p) = (t1, AnsSent) /\ oe_wait o' = ddel (if_name i) (oe_wait o) /\ ev_shows (EvOut o') = true /\
    state t1 ifs (match oe_wait o' with [] => rest | _ => mkSev (EvOut o') (sv_desc e) (sv_time e) :: rest end).
Proof.
  intros (Ep & Ei & Sh) E Ev Pr Pp G M. assert (K : exists o' x, out_match o (if_name i) p = (o', Ok x)) by (apply out_match_accepts; eauto). destruct K as (o' & x & K).
  pose proof (out_match_prints _ _ _ _ _ K Pp Ev) as Ev'. pose proof (out_match_ok _ _ _ _ _ K) as (m' & p' & _ & _ & W & _ & X1 & X2).
  cbn [do_call]. unfold t_send. rewrite Ep. cbn [dev_name]. rewrite E, K. destruct x.
  - contradiction.
  - set (e' := mkSev (EvOut o') (sv_desc e) (sv_time e)). pose proof (testpass_ok e' rest (t_scen t) Ev' Pr) as TP. rewrite TP. exists (mkT (with_queue rest (sc_done (t_scen t) ++ [e']) (next_out rest) (t_scen t)) (t_time t + 1)), o'.
    split; [reflexivity|]. split; [exact W|]. split; [exact Ev'|]. assert (Z0 : oe_wait o' = []) by (apply X1; reflexivity). rewrite Z0. unfold state, shown. cbn [t_scen with_queue sc_pend sc_ifs sc_done]. split; [reflexivity|]. split; [exact Ei|].
    apply Forall_app. split; [exact Sh|]. constructor; [exact Ev'|constructor].
  - eexists _, o'. split; [reflexivity|]. split; [exact W|]. split; [exact Ev'|]. destruct (oe_wait o') as [|y l] eqn:Z0; [assert (MPartial = MSuccess) by (apply X1; reflexivity); discriminate|].
    unfold state, shown. cbn [t_scen with_head sc_pend sc_ifs sc_done]. auto.
Qed.
(** The part of an output event that is still to come when the interfaces [l] have not been looked at. *)
Definition still (ifs : devinfo) (rest : list sev) (dev : str) (q : packet) (l : list iface) (t : tnet) : Prop :=
  (state t ifs rest /\ forall i, In i l -> if_name i = dev) \/
  exists e o, state t ifs (e :: rest) /\ sv_ev e = EvOut o /\ ev_shows (EvOut o) = true /\ oe_wait o <> [] /\ NoDup (dkeys (oe_wait o)) /\
    (forall d, In d (dkeys (oe_wait o)) <-> d <> dev /\ In d (map if_name l)) /\ (forall d m, In (d, m) (oe_wait o) -> meets m q).
Lemma play_flood ifs rest dev q k l : forall t, NoDup (map if_name l) -> Forall (fun x => prt (sv_ev x)) rest -> printable q -> still ifs rest dev q l t ->
  exists t1 tr, state t1 ifs rest /\ play t (flood l dev q k) = (let '(t2, tr2, e) := play t1 k in (t2, tr ++ tr2, e)).
Proof.
  induction l as [|i l IH]; intros t N Pr Pq S; cbn [flood].
  - destruct S as [[S _]|(e & o & S & E & _ & W & _ & D & _)].
    + exists t, []. split; [exact S|]. destruct (play t k) as [[? ?] ?]. reflexivity.
    + exfalso. destruct (oe_wait o) as [|[d m] w]; [contradiction|]. destruct (proj1 (D d) (or_introl eq_refl)) as [_ []].
  - cbn [map] in N. inversion N as [|? ? N1 N2]; subst. destruct (str_spec dev (if_name i)) as [E0|E0].
    + apply IH; auto. destruct S as [[S A]|(e & o & S & E & V & W & Nd & D & M)]; [left; split; [exact S|]; intros j Hj; apply A; right; exact Hj|].
      right. exists e, o. repeat (split; [assumption|]). split; [|exact M]. intros d. rewrite D. cbn [map In]. split; intros [X Y]; (split; [exact X|]); [destruct Y as [Y|Y]; [congruence|exact Y]|auto].
    + destruct S as [[S A]|(e & o & S & E & V & W & Nd & D & M)]; [exfalso; apply E0; symmetry; apply A; left; reflexivity|].
      assert (Hi : In (if_name i) (dkeys (oe_wait o))) by (apply D; split; [congruence|left; reflexivity]).
      destruct (dget (if_name i) (oe_wait o)) as [m|] eqn:G; [|exfalso; apply dget_None in G; contradiction].
      assert (Mm : meets m q) by (apply (M (if_name i)); apply dget_In; exact G).
      destruct (send_one t ifs e rest o i q m S E V Pr Pq G Mm) as (t1 & o' & C & Wo & V' & S').
      cbn [play]. rewrite C. cbv beta iota.
      assert (St : still ifs rest dev q l t1).
      { destruct (oe_wait o') as [|y w] eqn:Eo.
        - left. split; [exact S'|]. intros j Hj. destruct (String.string_dec (if_name j) dev) as [Q|Q]; [exact Q|]. exfalso.
          assert (Hj1 : In (if_name j) (dkeys (oe_wait o))) by (apply D; split; [exact Q|right; apply in_map; exact Hj]).
          assert (Hne : if_name j <> if_name i) by (intros X; apply N1; rewrite <- X; apply in_map; exact Hj).
          destruct (dget (if_name j) (oe_wait o)) as [mj|] eqn:Gj; [|apply dget_None in Gj; contradiction].
          rewrite <- (dget_ddel_other (if_name j) (if_name i)), <- Wo in Gj by exact Hne. discriminate.
        - right. exists (mkSev (EvOut o') (sv_desc e) (sv_time e)), o'. split; [exact S'|]. split; [reflexivity|]. split; [exact V'|]. rewrite Eo. split; [discriminate|]. rewrite Wo. split; [apply ddel_NoDup; exact Nd|].
          pose proof (ddel_spec (if_name i) (oe_wait o) Nd) as DS. split.
          + intros d. transitivity (In d (dkeys (oe_wait o)) /\ d <> if_name i).
            * unfold dkeys. rewrite !in_map_iff. split; [intros ([d' md] & <- & Hd); apply DS in Hd as [H1 H2]; split; [exists (d', md); auto|exact H2]|]. intros [([d' md] & <- & Hd) H2]. exists (d', md). split; [reflexivity|]. apply DS. auto.
            * rewrite D. cbn [map In]. split; [intros [[X [Y|Y]] Z0]; [congruence|auto]|]. intros [X Y]. split; [auto|]. intros ->. contradiction.
          + intros d md Hd. apply DS in Hd as [Hd _]. exact (M d md Hd). }
      destruct (IH t1 N2 Pr Pq St) as (t2 & tr & S2 & P2). exists t2, ((CSend (DIface i) q, AnsSent) :: tr). split; [exact S2|]. rewrite P2. destruct (play t2 k) as [[? ?] ?]. reflexivity.
Qed.
Lemma prt_out o d ts : prt (sv_ev (mkSev (EvOut o) d ts)) -> ev_shows (EvOut o) = true. Proof. intros [H _]. exact H. Qed.
Lemma play_hub ifs es : hub_script (map snd ifs) es -> table_ok ifs -> forall pend n t, map sv_ev pend = es -> Forall (fun x => prt (sv_ev x)) pend ->
  (forall d p q, In (EvIn d p) es -> reads_as p q -> printable q) -> (List.length es < n)%nat -> state t ifs pend ->
  exists t' tr, play t (hub n (map snd ifs)) = (t', tr, EndReturn) /\ state t' ifs [].
Proof.
  intros H [TN TK]. assert (NN : map if_name (map snd ifs) = dkeys ifs).
  { unfold dkeys. rewrite map_map. apply map_ext_in. intros [k i] Hi. cbn [snd fst]. exact (TK k i Hi). }
  assert (ND : NoDup (map if_name (map snd ifs))) by (rewrite NN; exact TN).
  induction H as [|w es H IH|dev p q es Hd R K H IH|dev p q o es Hd R K W Nd D M G H IH]; intros pend n t E Pr Pq L S; (destruct n as [|n]; [cbn in L; lia|]); destruct (hub_step n (map snd ifs)) as (k & Ek & K1 & K2 & K3 & _); rewrite Ek; cbn [play].
  - destruct pend; [|discriminate]. destruct S as (Ep & Ei & Sh). assert (C : do_call t CRecv = (t, AnsExn EShutdown)) by (cbn [do_call]; unfold t_recv; rewrite Ep; reflexivity). rewrite C, K3. cbn [play]. do 2 eexists. split; [reflexivity|]. repeat split; auto.
  - destruct pend as [|e pend]; [discriminate|]. cbn [map] in E. injection E as E1 E2. inversion Pr as [|? ? Pe Pr2]; subst. destruct (recv_wait t ifs e pend w S E1 Pr2) as (t1 & C & S1). rewrite C, K2.
    destruct (IH pend n t1 eq_refl Pr2) as (t2 & tr & P2 & S2); [intros d p q Hi; apply (Pq d p q); right; exact Hi|cbn [List.length] in L; lia|exact S1|]. rewrite P2. eauto.
  - destruct pend as [|e pend]; [discriminate|]. cbn [map] in E. injection E as E1 E2. inversion Pr as [|? ? Pe Pr2]; subst. rewrite NN in Hd. destruct (recv_input t ifs e pend dev p q S E1 Pe Pr2 R Hd) as (t1 & C & S1). rewrite C, K1. unfold after_recv. cbn [rv_pkt rv_dev].
    assert (Q : printable q) by (apply (Pq dev p q); [left; reflexivity|exact R]). assert (Q2 : pkt_shows q = true) by (apply pkt_prints; exact Q). rewrite Q2.
    assert (Pq2 : forall d p0 q0, In (EvIn d p0) (map sv_ev pend) -> reads_as p0 q0 -> printable q0) by (intros d p0 q0 Hi; apply (Pq d p0 q0); right; exact Hi). cbn [List.length] in L.
    destruct (keep_out (map snd ifs) q) eqn:Ko.
    + apply keep_out_iff in Ko. destruct K as [K|K]; [contradiction|]. destruct (play_flood ifs pend dev q (hub n (map snd ifs)) (map snd ifs) t1 ND Pr2 Q) as (t2 & tr & S2 & P2); [left; auto|]. rewrite P2.
      destruct (IH pend n t2 eq_refl Pr2 Pq2 ltac:(lia) S2) as (t3 & tr3 & P3 & S3). rewrite P3. eauto.
    + destruct (IH pend n t1 eq_refl Pr2 Pq2 ltac:(lia) S1) as (t3 & tr3 & P3 & S3). rewrite P3. eauto.
  - destruct pend as [|e [|e2 pend]]; [discriminate..|]. cbn [map] in E. injection E as E1 E2 E3. inversion Pr as [|? ? Pe Pr2]; subst. inversion Pr2 as [|? ? Pe2 Pr3]; subst. rewrite NN in Hd. destruct (recv_input t ifs e (e2 :: pend) dev p q S E1 Pe Pr2 R Hd) as (t1 & C & S1). rewrite C, K1. unfold after_recv. cbn [rv_pkt rv_dev].
    assert (Q : printable q) by (apply (Pq dev p q); [left; reflexivity|exact R]). assert (Q2 : pkt_shows q = true) by (apply pkt_prints; exact Q). rewrite Q2.
    assert (Ko : keep_out (map snd ifs) q = true) by (apply keep_out_iff; exact K). rewrite Ko. cbn [List.length] in L.
    destruct (play_flood ifs pend dev q (hub n (map snd ifs)) (map snd ifs) t1 ND Pr3 Q) as (t2 & tr & S2 & P2).
    { right. exists e2, o. rewrite E2 in Pe2. repeat (split; [assumption|]). split; [exact (proj1 Pe2)|]. repeat (split; [assumption|]). exact M. }
    rewrite P2. destruct (IH pend n t2 eq_refl Pr3) as (t3 & tr3 & P3 & S3); [intros d p0 q0 Hi; apply (Pq d p0 q0); right; right; exact Hi|lia|exact S2|]. rewrite P3. eauto.
Qed.
Lemma play_runs p : forall t t' tr e, play t p = (t', tr, e) -> runs t p t' tr e.
Proof.
  induction p as [c k IH| |x]; intros t t' tr e H; cbn [play] in H.
  - destruct (do_call t c) as [t1 a] eqn:D. destruct (play t1 (k a)) as [[t2 tr2] e2] eqn:Q. injection H as <- <- <-. eapply r_call; [exact D|]. apply IH. exact Q.
  - injection H as <- <- <-. constructor.
  - injection H as <- <- <-. constructor.
Qed.
