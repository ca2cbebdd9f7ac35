(** Proofs about test scenarios as state machines. *)
From Verif Require Import BaseLemmas CodecLemmas Dict DictLemmas EthAddrModel Ipv4Model TransportModel Ipv6Model IcmpModel PacketModel PacketProofs NetModel NetProofs TestModel TestSpec TestMatch.
From Coq Require Import Sorted.
#[local] Open Scope string_scope.
#[local] Open Scope Z_scope.
#[local] Open Scope list_scope.

(** ** Printing *)
Lemma hdr_prints h : hdr_shows h = true <-> prints h.
Proof. assert (O : forall l, forallb v6opt_shows l = true <-> forall a, ~ In (VHome a) l).
  { intros l. rewrite forallb_forall. split; [intros H a K; apply H in K; discriminate|]. intros H [] K; try reflexivity. exfalso. eapply H; eauto. }
  destruct h; cbn [hdr_shows prints]; try tauto; try apply O; destruct (ic_data h); cbn [data_shows]; split; auto; try discriminate; contradiction. Qed.
Lemma pkt_prints p : pkt_shows p = true <-> printable p.
Proof. unfold pkt_shows, printable. rewrite forallb_forall, Forall_forall. split; intros H x K; apply hdr_prints; auto. Qed.
Lemma pre_ser_prints raw pk h h1 : pre_ser raw pk h = Ok h1 -> (prints (hdr_after h1) <-> prints h).
Proof. intros H. destruct h; cbn [pre_ser] in H; try discriminate H; try (apply ok_inj in H; subst h1; cbn [hdr_after prints]; tauto).
  - ok_step H. apply ok_inj in H. subst. cbn [hdr_after prints]. tauto.
  - apply ok_inj in H. subst. cbn [hdr_after]. unfold hop_serialised. destruct (v6opts_to_bytes (ho_opts h)); cbn [prints ho_opts]; tauto.
  - apply ok_inj in H. subst. cbn [hdr_after]. unfold hop_serialised. destruct (v6opts_to_bytes (ho_opts h)); cbn [prints ho_opts]; tauto.
  - ok_step H. apply ok_inj in H. subst. cbn [hdr_after prints]. tauto.
  - ok_step H. apply ok_inj in H. subst. cbn [hdr_after prints]. tauto.
  - apply ok_inj in H. subst. cbn [hdr_after]. unfold icmp_serialised. destruct (icmp_pack h 0); cbn [prints ic_data]; tauto.
  - ok_step H. apply ok_inj in H. subst. unfold icmp6_pre_serialize in E. destruct (first_ip6 pk); [|discriminate]. ok_step E. apply ok_inj in E. subst. cbn [hdr_after prints ic_data]. tauto. Qed.
Lemma ser_prints hs : forall pre hs' b, ser pre hs = Ok (hs', b) -> (printable hs' <-> printable hs).
Proof. induction hs as [|h hs IH]; intros pre hs' b H; [apply ok_pair_inj in H as [<- <-]; tauto|].
  cbn [ser] in H. ok_step H. destruct a as [t' raw]. ok_step H. ok_step H. apply ok_pair_inj in H as [<- <-].
  pose proof (IH _ _ _ E) as K. pose proof (pre_ser_prints _ _ _ _ E0) as J. unfold printable in *. rewrite !Forall_cons_iff. tauto. Qed.
Lemma match_prints m p p' x : m_match m p = Ok (x, p') -> printable p -> pkt_shows p' = true.
Proof. unfold m_match. intros H K. ok_step H. destruct a as [q b]. ok_step H. destruct a as [r' rb]. ok_step H. ok_step H. apply ok_pair_inj in H as [_ <-]. apply pkt_prints. apply (ser_prints _ _ _ _ E). exact K. Qed.
(** Events that can be printed now and once passed. *)
Definition prt (e : event) : Prop := ev_shows e = true /\ ev_shows (reread e) = true.
Lemma reread_spec d p : (exists q, reads_as p q /\ reread (EvIn d p) = EvIn d q) \/ reread (EvIn d p) = EvIn d p /\ forall q, ~ reads_as p q.
Proof. cbn [reread]. unfold reads_as. destruct (pkt_to_bytes p) as [[p' b]|x]; cbn [bindr]; [|right; split; [reflexivity|]; intros q (p' & b & ? & _); discriminate].
  destruct (pkt_new b (first_cls p)) as [q|x] eqn:E; [left; exists q; split; [eauto|reflexivity]|right; split; [reflexivity|]]. intros q (p1 & b1 & [= <- <-] & K). congruence. Qed.
Lemma printable_prt e : printable_event e -> fresh_event e -> prt e.
Proof. intros P F. unfold prt. destruct e as [d p|n|o]; [|split; reflexivity|].
  - destruct P as [P1 P2]. split; [apply pkt_prints; exact P1|]. destruct (reread_spec d p) as [(q & R & ->)|[-> _]]; apply pkt_prints; auto.
  - cbn [reread]. assert (K : ev_shows (EvOut o) = true); [|auto]. cbn [ev_shows]. destruct F as (_ & _ & ->). cbn [forallb]. rewrite andb_true_r. cbn [printable_event] in P. induction P as [|x l H _ IH]; [reflexivity|].
    cbn [forallb]. rewrite IH, andb_true_r. apply pkt_prints. exact H. Qed.
Definition next_out (rest : list sev) : bool := match rest with n :: _ => is_out (sv_ev n) | [] => false end.
Lemma testpass_ok e rest s : ev_shows (sv_ev e) = true -> Forall (fun x => prt (sv_ev x)) rest -> testpass e rest s = (with_queue rest (sc_done s ++ [e]) (next_out rest) s, Ok tt).
Proof. intros H F. unfold testpass. rewrite H. destruct F as [|x l [Hx _] _]; [reflexivity|]. rewrite Hx. reflexivity. Qed.
Lemma on_last_app {A} (f : A -> A) l x : on_last f (l ++ [x]) = l ++ [f x].
Proof. induction l as [|y l IH]; [reflexivity|]. cbn [app]. destruct l; [reflexivity|]. cbn [on_last app] in *. rewrite IH. reflexivity. Qed.
Lemma forallb_del {A} (f : str * A -> bool) d k : forallb f d = true -> forallb f (ddel k d) = true.
Proof. induction d as [|[a v] d IH]; cbn [ddel forallb]; [auto|]. intros H. apply andb_prop in H as [H1 H2]. destruct (str_eqb k a); [exact H2|]. cbn [forallb]. rewrite H1. auto. Qed.
Lemma forallb_set {A} (f : str * A -> bool) d k v : forallb f d = true -> (forall j, f (j, v) = true) -> forallb f (dset k v d) = true.
Proof. intros H K. induction d as [|[a w] d IH]; cbn [dset forallb]; [rewrite K; reflexivity|]. cbn [forallb] in H. apply andb_prop in H as [H1 H2]. destruct (str_eqb k a); cbn [forallb]; rewrite ?K, ?H1; cbn [andb]; auto. Qed.

(** ** One output event *)
Lemma out_match_ok o dev p o' x : out_match o dev p = (o', Ok x) ->
  exists m p', dget dev (oe_wait o) = Some m /\ m_match m p = Ok (true, p') /\ oe_wait o' = ddel dev (oe_wait o) /\ oe_got o' = dset dev (SeenPkt p') (oe_got o) /\
  (x = MSuccess <-> oe_wait o' = []) /\ x <> MFail.
Proof. unfold out_match. destruct (dget dev (oe_wait o)) as [m|] eqn:E; [|discriminate]. destruct (m_match m p) as [[[] p']|] eqn:M; try discriminate.
  intros H. injection H as <- <-. exists m, p'. cbn [oe_wait oe_got]. repeat (split; [reflexivity || assumption|]).
  destruct (ddel dev (oe_wait o)); split; (split; congruence) || discriminate. Qed.
Lemma out_match_err o dev p o' e : out_match o dev p = (o', Err e) -> o' = o.
Proof. unfold out_match. destruct (dget dev (oe_wait o)) as [m|]; [|congruence]. destruct (m_match m p) as [[[] p']|]; congruence. Qed.
Lemma out_match_accepts o dev p : (exists m, dget dev (oe_wait o) = Some m /\ meets m p) <-> exists o' x, out_match o dev p = (o', Ok x).
Proof. split.
  - intros (m & E & p' & M). unfold out_match. rewrite E, M. eauto.
  - intros (o' & x & H). apply out_match_ok in H as (m & p' & H1 & H2 & _). exists m. split; [exact H1|]. exists p'. exact H2. Qed.
Lemma out_match_prints o dev p o' x : out_match o dev p = (o', Ok x) -> printable p -> ev_shows (EvOut o) = true -> ev_shows (EvOut o') = true.
Proof. intros H P E. destruct (out_match_ok _ _ _ _ _ H) as (m & p' & _ & M & W & G & _).
  cbn [ev_shows] in *. apply andb_prop in E as [E1 E2]. rewrite W, G. rewrite forallb_del by exact E1. apply forallb_set; [exact E2|]. intros j. cbn [snd seen_shows]. exact (match_prints _ _ _ _ M P). Qed.
Lemma accepted_nil l : accepted l [] = [].
Proof. destruct l; reflexivity. Qed.
Theorem attempts_spec l : forall o o' rs, NoDup (dkeys (oe_wait o)) -> attempts o l = (o', rs) ->
  let acc := accepted l rs in
  NoDup (map fst acc) /\
  (forall dev p, In (dev, p) acc -> exists m, dget dev (oe_wait o) = Some m /\ meets m p) /\
  (forall dev m, dget dev (oe_wait o') = Some m <-> dget dev (oe_wait o) = Some m /\ ~ In dev (map fst acc)) /\
  (List.length (oe_wait o) = List.length acc + List.length (oe_wait o'))%nat.
Proof. induction l as [|[d p] l IH]; intros o o' rs N H; cbn [attempts] in H.
  - injection H as <- <-. cbn [accepted map]. repeat split; try constructor; try tauto; intros; contradiction.
  - destruct (out_match o d p) as [o1 x] eqn:E. destruct (attempts o1 l) as [o2 xs] eqn:A. injection H as <- <-. destruct x as [x|x].
    + apply out_match_ok in E as (m & p' & E1 & E2 & E3 & E4 & _).
      assert (N1 : NoDup (dkeys (oe_wait o1))) by (rewrite E3; apply ddel_NoDup; exact N).
      destruct (IH o1 o2 xs N1 A) as (I1 & I2 & I3 & I4). cbn [accepted map fst].
      assert (D : forall dev, dget dev (oe_wait o1) = if str_eqb dev d then None else dget dev (oe_wait o)).
      { intros dev. rewrite E3. destruct (str_spec dev d) as [->|Hn]; [apply dget_ddel_same; exact N|apply dget_ddel_other; congruence]. }
      split; [constructor; [|exact I1]; intros Hi; apply in_map_iff in Hi as ([d' q] & Hd & Hq); cbn [fst] in Hd; subst d'; apply I2 in Hq as (m' & Hm & _);
        rewrite D in Hm; rewrite str_eqb_refl in Hm; discriminate|].
      split; [|split].
      * intros dev q [Hq|Hq]; [injection Hq as <- <-; exists m; split; [exact E1|exists p'; exact E2]|].
        apply I2 in Hq as (m' & Hm & Hq). rewrite D in Hm. destruct (str_eqb dev d); [discriminate|]. eauto.
      * intros dev m'. rewrite I3, D. cbn [In]. destruct (str_spec dev d) as [->|Hn]; [split; [intros [? _]; discriminate|intros [_ K]; exfalso; apply K; left; reflexivity]|].
        split; [intros [K1 K2]; split; [exact K1|intros [K|K]; [congruence|contradiction]]|intros [K1 K2]; split; [exact K1|tauto]].
      * cbn [List.length]. rewrite E3 in I4. pose proof (ddel_length d (oe_wait o)) as L.
        assert (Hi : In d (dkeys (oe_wait o))) by (apply in_map_iff; exists (d, m); split; [reflexivity|apply dget_In; exact E1]). specialize (L Hi). lia.
    + apply out_match_err in E. subst o1. cbn [accepted]. apply (IH o o2 xs N A). Qed.

(** ** Steps *)
Definition pend_ok (a b : list sev) : Prop := match a, b with [], [] => True | x :: l, y :: l' => later x y /\ l = l' | _, _ => False end.
Definition inv (A : list sev) (s : scen) : Prop :=
  exists Ad At, A = Ad ++ At /\ Forall2 passed Ad (sc_done s) /\ pend_ok At (sc_pend s) /\ sc_next s = zlen A.
Lemma later_refl a : later a a.
Proof. split; [reflexivity|]. split; [reflexivity|]. destruct (sv_ev a); auto. Qed.
Lemma pend_ok_refl l : pend_ok l l.
Proof. destruct l; cbn [pend_ok]; auto using later_refl. Qed.
Lemma later_trans a b c : later a b -> later b c -> later a c.
Proof. intros (A1 & A2 & A3) (B1 & B2 & B3). split; [congruence|]. split; [congruence|].
  destruct (sv_ev a), (sv_ev b), (sv_ev c); try congruence. auto. Qed.
Lemma later_passed a b c : later a b -> passed b c -> passed a c.
Proof. intros (A1 & A2 & A3) (B1 & B2 & B3). split; [congruence|]. split; [congruence|].
  destruct (sv_ev a), (sv_ev b); try congruence; destruct (sv_ev c); try congruence; [injection A3 as -> ->; exact B3|auto]. Qed.
Lemma passed_reread e : is_input e = true -> passed e (sev_reread e).
Proof. intros H. unfold is_input in H. unfold sev_reread, passed. cbn [sv_desc sv_time sv_ev]. split; [reflexivity|]. split; [reflexivity|]. destruct (sv_ev e) as [d p|n|o]; [|reflexivity|discriminate].
  destruct (reread_spec d p) as [(q & R & ->)|[-> R]]; auto. Qed.
Lemma later_is_passed a b : later a b -> is_input b = false -> passed a b.
Proof. intros (A1 & A2 & A3) N. split; [exact A1|]. split; [exact A2|]. unfold is_input in N. destruct (sv_ev a), (sv_ev b); try discriminate; exact A3. Qed.
Lemma later_out o o' d t : (forall dev m, dget dev (oe_wait o') = Some m -> dget dev (oe_wait o) = Some m) -> later (mkSev (EvOut o) d t) (mkSev (EvOut o') d t).
Proof. intros H. repeat split. exact H. Qed.
Lemma ddel_sub {V} dev (d : dict V) k m : NoDup (dkeys d) -> dget k (ddel dev d) = Some m -> dget k d = Some m.
Proof. intros N. destruct (str_spec k dev) as [->|Hn]; [rewrite dget_ddel_same by exact N; discriminate|rewrite dget_ddel_other by congruence; auto]. Qed.
(** Output events keep their devices distinct. *)
Definition distinct (e : sev) : Prop := match sv_ev e with EvOut o => NoDup (dkeys (oe_wait o)) | _ => True end.
(** What a call can do to the scenario. *)
Inductive moves : scen -> scen -> Prop :=
| mv_same s : moves s s
| mv_part s o o' d t rest : sc_pend s = mkSev (EvOut o) d t :: rest -> later (mkSev (EvOut o) d t) (mkSev (EvOut o') d t) ->
    NoDup (dkeys (oe_wait o')) -> oe_wait o' <> [] -> ev_shows (EvOut o') = true -> moves s (with_head (mkSev (EvOut o') d t) rest s)
| mv_pass s e e' rest : sc_pend s = e :: rest -> passed e e' -> distinct e' -> complete e' -> ev_shows (sv_ev e') = true -> moves s (with_queue rest (sc_done s ++ [e']) (next_out rest) s).
Lemma sev_eta e : e = mkSev (sv_ev e) (sv_desc e) (sv_time e).
Proof. destruct e; reflexivity. Qed.
Lemma call_moves t c t' a : do_call t c = (t', a) -> Forall distinct (sc_pend (t_scen t)) -> Forall (fun e => ~ complete e \/ is_input e = true) (sc_pend (t_scen t)) ->
  Forall (fun e => prt (sv_ev e)) (sc_pend (t_scen t)) -> printable_call c ->
  moves (t_scen t) (t_scen t') /\ t_time t <= t_time t' /\ (a <> AnsSent -> c <> CRecv -> t' = t) .
Proof. intros H D NC Pt Pc. destruct c as [|da p]; cbn [do_call] in H.
  - destruct (t_recv t) as [t1 r] eqn:E. assert (t1 = t') by congruence. subst t1. split; [|split; [|congruence]].
    + unfold t_recv in E. destruct (sc_pend (t_scen t)) as [|e rest] eqn:P; [injection E as <- _; constructor|].
      inversion D as [|? ? De _]; subst. inversion Pt as [|? ? [Pe Pf] Pr]; subst. rewrite (testpass_ok e rest (t_scen t) Pe Pr) in E.
      destruct e as [ev d ts]. cbn [sv_ev] in E, Pe, Pf.
      destruct ev as [dev q|n|o].
      * assert (T : moves (t_scen t) (with_queue rest (sc_done (t_scen t) ++ [sev_reread (mkSev (EvIn dev q) d ts)]) (next_out rest) (t_scen t))).
        { eapply mv_pass; [exact P|apply passed_reread; reflexivity| | |exact Pf]; unfold sev_reread, distinct, complete; cbn [sv_ev]; destruct (reread_spec dev q) as [(? & _ & ->)|[-> _]]; exact I. }
        destruct (generate _ _) as [[? ?]|] in E; injection E as <- _; cbn [t_scen with_queue sc_pend sc_done sc_timer]; rewrite on_last_app; exact T.
      * assert (T : moves (t_scen t) (with_queue rest (sc_done (t_scen t) ++ [sev_reread (mkSev (EvTimeout n) d ts)]) (next_out rest) (t_scen t)))
          by (eapply mv_pass; [exact P|apply passed_reread; reflexivity|exact I|exact I|exact Pf]).
        destruct (generate _ _) as [[? ?]|] in E; injection E as <- _; cbn [t_scen with_queue sc_pend sc_done sc_timer]; rewrite on_last_app; exact T.
      * injection E as <- _. apply mv_same.
    + unfold t_recv in E. destruct (sc_pend (t_scen t)) as [|e rest]; [injection E as <- _; lia|]. inversion Pt as [|? ? [Pe _] Pr]; subst. rewrite (testpass_ok e rest (t_scen t) Pe Pr) in E.
      destruct (sv_ev e); [| |injection E as <- _; lia]; destruct (generate _ _) as [[? ?]|] in E; injection E as <- _; cbn [t_time]; lia.
  - destruct (t_send t da p) as [t1 r] eqn:E. injection H as <- Ha. unfold t_send in E. destruct (sc_pend (t_scen t)) as [|e rest] eqn:P; [injection E as <- _; split; [constructor|split; [lia|auto]]|].
    destruct (dev_name da (t_scen t)) as [dev|]; [|injection E as <- _; split; [constructor|split; [lia|auto]]].
    inversion D as [|? ? De _]; subst. inversion NC as [|? ? Ne _]; subst. inversion Pt as [|? ? [Pe _] Pr]; subst. destruct e as [ev d ts]. cbn [sv_ev sv_desc sv_time] in E, Pe.
    destruct ev as [? ?|?|o]; [injection E as <- _; split; [constructor|split; [lia|auto]]..|].
    destruct (out_match o dev p) as [o' [x|x]] eqn:M.
    + destruct (out_match_ok _ _ _ _ _ M) as (m & p' & M1 & M2 & M3 & M4 & M5 & M6). unfold distinct in De. cbn [sv_ev] in De.
      assert (L : later (mkSev (EvOut o) d ts) (mkSev (EvOut o') d ts)) by (apply later_out; intros k mm; rewrite M3; apply ddel_sub; exact De).
      assert (N' : NoDup (dkeys (oe_wait o'))) by (rewrite M3; apply ddel_NoDup; exact De).
      pose proof (out_match_prints _ _ _ _ _ M Pc Pe) as Sh.
      destruct x; [congruence|rewrite (testpass_ok (mkSev (EvOut o') d ts) rest (t_scen t) Sh Pr) in E|]; injection E as <- <-; cbn [t_scen t_time]; (split; [|split; [lia|congruence]]).
      * eapply mv_pass; [exact P|apply later_is_passed; [exact L|reflexivity]|exact N'| |exact Sh]. unfold complete. cbn [sv_ev]. apply M5. reflexivity.
      * eapply mv_part; [exact P|exact L|exact N'| |exact Sh]. intros K. apply M5 in K. discriminate.
    + pose proof (out_match_err _ _ _ _ _ M) as ->. injection E as <- <-. cbn [t_scen t_time].
      assert (Ht : mkT (with_head (mkSev (EvOut o) d ts) rest (t_scen t)) (t_time t) = t).
      { destruct t as [[n i f pe dn tm nx tmo] tt0]. cbn in P |- *. unfold with_head. cbn. rewrite P. reflexivity. }
      split; [|split; [lia|auto]]. replace (with_head _ rest (t_scen t)) with (t_scen t) by (rewrite <- Ht at 1; reflexivity). constructor. Qed.

(** ** Histories *)
Definition fresh_sev (e : sev) : Prop := fresh_event (sv_ev e).
(** State of the scenario between calls. *)
Definition open_ev (e : sev) : Prop := match sv_ev e with EvOut o => NoDup (dkeys (oe_wait o)) /\ oe_wait o <> [] | _ => True end.
Definition sound (s : scen) : Prop :=
  Forall open_ev (sc_pend s) /\ Forall complete (sc_done s) /\ Forall (fun e => prt (sv_ev e)) (sc_pend s) /\ Forall (fun e => ev_shows (sv_ev e) = true) (sc_done s).
Lemma open_distinct l : Forall open_ev l -> Forall distinct l /\ Forall (fun e => ~ complete e \/ is_input e = true) l.
Proof. induction 1 as [|e l H _ [I1 I2]]; [split; constructor|]. split; constructor; auto; unfold open_ev, distinct, complete, is_input in *; destruct (sv_ev e); tauto. Qed.
Lemma moves_sound s s' : moves s s' -> sound s -> sound s'.
Proof. intros H (S1 & S2 & S3 & S4). destruct H as [s|s o o' d t rest P L N W V|s e e' rest P L N C V]; [repeat apply conj; assumption| |].
  - rewrite P in S1, S3. inversion S1; inversion S3; subst. unfold sound. cbn [with_head sc_pend sc_done]. split; [constructor; [split; assumption|assumption]|]. split; [exact S2|]. split; [|exact S4]. constructor; [split; exact V|assumption].
  - rewrite P in S1, S3. inversion S1; inversion S3; subst. unfold sound. cbn [with_queue sc_pend sc_done]. split; [assumption|]. split; [apply Forall_app; split; [exact S2|constructor; [exact C|constructor]]|].
    split; [assumption|]. apply Forall_app. split; [exact S4|]. constructor; [exact V|constructor]. Qed.
Lemma moves_inv A s s' : moves s s' -> inv A s -> inv A s'.
Proof. intros H (Ad & At & E & F & Pk & Nx). destruct H as [s|s o o' d t rest P L N W V|s e e' rest P L N C V]; [exists Ad, At; auto| |].
  - rewrite P in Pk. destruct At as [|x l]; [contradiction|]. destruct Pk as [Lx ->]. exists Ad, (x :: rest). split; [exact E|]. split; [exact F|]. split; [|exact Nx].
    cbn [with_head sc_pend pend_ok]. split; [eapply later_trans; eauto|reflexivity].
  - rewrite P in Pk. destruct At as [|x l]; [contradiction|]. destruct Pk as [Lx ->]. exists (Ad ++ [x]), rest. split; [rewrite <- app_assoc; exact E|]. cbn [with_queue sc_done sc_pend sc_next].
    split; [apply Forall2_app; [exact F|constructor; [eapply later_passed; eauto|constructor]]|]. split; [apply pend_ok_refl|exact Nx]. Qed.
Lemma zlen_snoc {A} (l : list A) x : zlen (l ++ [x]) = zlen l + 1.
Proof. unfold zlen. rewrite app_length. cbn [List.length]. lia. Qed.
Lemma expect_inv A s e d : inv A s -> inv (A ++ [mkSev e d (zlen A)]) (scen_expect e d s).
Proof. intros (Ad & At & E & F & Pk & Nx). exists Ad, (At ++ [mkSev e d (zlen A)]). split; [rewrite app_assoc, E; reflexivity|]. cbn [scen_expect sc_done sc_pend sc_next].
  split; [exact F|]. split; [|rewrite zlen_snoc; lia]. rewrite Nx.
  destruct At as [|x l], (sc_pend s) as [|y l']; cbn [pend_ok app] in *; try contradiction; [split; [apply later_refl|reflexivity]|]. destruct Pk as [L ->]. auto. Qed.
Lemma fresh_open e : fresh_sev e -> open_ev e.
Proof. unfold fresh_sev, fresh_event, open_ev. destruct (sv_ev e); tauto. Qed.
Lemma expect_sound s e d : fresh_event e -> printable_event e -> sound s -> sound (scen_expect e d s).
Proof. intros F P (S1 & S2 & S3 & S4). unfold sound. cbn [scen_expect sc_pend sc_done]. split; [|split; [exact S2|split; [|exact S4]]]; apply Forall_app; (split; [assumption|]); (constructor; [|constructor]); [apply fresh_open; exact F|apply printable_prt; assumption]. Qed.
(** A history in which everything can be printed. *)
Definition printable_op (o : top) : Prop := match o with OExpect e _ => printable_event e | OCall c => printable_call c end.
Lemma hist_inv os : forall t A t' log, inv A (t_scen t) -> sound (t_scen t) -> Forall fresh_sev (authored (zlen A) os) -> Forall printable_op os -> t_hist t os = (t', log) ->
  inv (A ++ authored (zlen A) os) (t_scen t') /\ sound (t_scen t').
Proof. induction os as [|[e d|c] os IH]; intros t A t' log Hi Hs Hf Hp H; cbn [t_hist] in H; [|inversion Hp as [|? ? Hp1 Hp2]; subst; cbn [printable_op] in Hp1..].
  - injection H as <- _. cbn [authored]. rewrite app_nil_r. auto.
  - cbn [t_step] in H. destruct (t_hist _ os) as [t2 l] eqn:E. injection H as <- _. cbn [authored] in *. inversion Hf as [|? ? F1 F2]; subst.
    replace (zlen A + 1) with (zlen (A ++ [mkSev e d (zlen A)])) in * by apply zlen_snoc.
    specialize (IH (mkT (scen_expect e d (t_scen t)) (t_time t)) (A ++ [mkSev e d (zlen A)]) _ _ (expect_inv _ _ e d Hi) (expect_sound _ e d F1 Hp1 Hs) F2 Hp2 E). rewrite <- app_assoc in IH. exact IH.
  - cbn [t_step authored] in *. destruct (do_call t c) as [t1 a] eqn:C. destruct (t_hist t1 os) as [t2 l] eqn:E. injection H as <- _.
    destruct (open_distinct _ (proj1 Hs)) as [D1 D2]. destruct (call_moves _ _ _ _ C D1 D2 (proj1 (proj2 (proj2 Hs))) Hp1) as (M & _ & _).
    eapply IH; [eapply moves_inv; eauto|eapply moves_sound; eauto|exact Hf|exact Hp2|exact E]. Qed.
Definition unused (s : scen) : Prop := sc_pend s = [] /\ sc_done s = [] /\ sc_next s = 0.
Lemma unused_sound s : unused s -> sound s.
Proof. intros (U1 & U2 & _). unfold sound. rewrite U1, U2. repeat split; constructor. Qed.
Theorem history_spec s os t' log : unused s -> Forall fresh_sev (authored 0 os) -> Forall printable_op os -> t_hist (tnet_new s) os = (t', log) ->
  exists before after, authored 0 os = before ++ after /\
  Forall2 passed before (sc_done (t_scen t')) /\ Forall complete (sc_done (t_scen t')) /\
  match after, sc_pend (t_scen t') with
  | [], [] => True
  | x :: l, y :: l' => later x y /\ (is_input y = false -> ~ complete y) /\ l = l'
  | _, _ => False
  end.
Proof. intros U F Pp H. pose proof (unused_sound s U) as S0. destruct U as (U1 & U2 & U3).
  assert (I0 : inv [] (t_scen (tnet_new s))). { exists [], []. cbn [tnet_new t_scen]. rewrite U1, U2, U3. split; [reflexivity|]. split; [constructor|]. split; [exact I|reflexivity]. }
  destruct (hist_inv os _ _ _ _ I0 S0 F Pp H) as [(Ad & At & E & F2 & Pk & _) (S1 & S2 & _)]. cbn [app] in E. change (zlen []) with 0 in E. exists Ad, At. split; [exact E|]. split; [exact F2|]. split; [exact S2|].
  destruct At as [|x l], (sc_pend (t_scen t')) as [|y l']; cbn [pend_ok] in Pk; try contradiction; [exact I|]. destruct Pk as [L ->]. split; [exact L|]. split; [|reflexivity].
  inversion S1 as [|? ? O _]; subst. unfold open_ev, is_input, complete in *. destruct (sv_ev y); [discriminate|discriminate|]. intros _. tauto. Qed.
Lemma Forall2_len2 {A B} (R : A -> B -> Prop) a b : Forall2 R a b -> List.length a = List.length b.
Proof. induction 1; cbn [List.length]; congruence. Qed.
(** The counts of the summary. *)
Theorem history_counts s os t' log : unused s -> Forall fresh_sev (authored 0 os) -> Forall printable_op os -> t_hist (tnet_new s) os = (t', log) ->
  let '(passed, failed, pending) := scen_summary (t_scen t') in
  passed + failed + pending = zlen (authored 0 os) /\ 0 <= failed <= 1 /\ 0 <= pending /\
  (scen_done (t_scen t') = true <-> passed = zlen (authored 0 os)) /\ (failed = 0 <-> scen_done (t_scen t') = true).
Proof. intros U F Pp H. destruct (history_spec s os t' log U F Pp H) as (b & a & E & F2 & _ & P). unfold scen_summary, scen_done. apply Forall2_len2 in F2.
  assert (L : zlen (authored 0 os) = zlen (sc_done (t_scen t')) + zlen (sc_pend (t_scen t'))).
  { rewrite E. rewrite zlen_app. unfold zlen. rewrite F2. f_equal. f_equal. destruct a, (sc_pend (t_scen t')); try contradiction; [reflexivity|]. destruct P as (_ & _ & ->). reflexivity. }
  rewrite L. pose proof (zlen_nonneg (sc_pend (t_scen t'))) as Z. split; [lia|]. split; [lia|]. split; [lia|].
  destruct (sc_pend (t_scen t')) as [|y l]; [change (zlen []) with 0; split; split; intros; lia || reflexivity|].
  assert (zlen (y :: l) = zlen l + 1) as Q by (unfold zlen; cbn [List.length]; lia). pose proof (zlen_nonneg l). split; split; intros; try discriminate; lia. Qed.
(** A failed call changes nothing, and no call takes more than the first pending event. *)
Theorem failed_send_keeps t a p t' e : sound (t_scen t) -> printable p -> do_call t (CSend a p) = (t', AnsExn e) -> t' = t.
Proof. intros (S1 & _ & S3 & _) P H. destruct (open_distinct _ S1) as [D1 D2]. destruct (call_moves _ _ _ _ H D1 D2 S3 P) as (_ & _ & K). apply K; discriminate. Qed.
