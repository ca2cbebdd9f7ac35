(** Runs against a script (proofs). *)
From Verif Require Import BaseLemmas CodecLemmas Dict DictLemmas EthAddrModel PacketModel NetModel NetProofs TestModel TestSpec TestRun.
From Coq Require Import Sorted.
#[local] Open Scope string_scope.
#[local] Open Scope Z_scope.
#[local] Open Scope list_scope.

Lemma ddel_perm {V} k (v : V) d : NoDup (dkeys d) -> dget k d = Some v -> Permutation d ((k, v) :: ddel k d).
Proof. induction d as [|[k2 w] d IH]; cbn [dget ddel]; [discriminate|]. intros N. cbn [dkeys map fst] in N. inversion N as [|? ? N1 N2]; subst.
  destruct (str_spec k k2) as [->|Hn]; [intros [= ->]; reflexivity|]. intros H. rewrite (IH N2 H) at 1. apply perm_swap. Qed.
Lemma goes_to_iff a s dev : dev_name a s = Ok dev <-> goes_to (sc_ifs s) a dev.
Proof. destruct a; cbn [dev_name goes_to]; split; congruence. Qed.
Lemma goes_to_fun ifs a d d' : goes_to ifs a d -> goes_to ifs a d' -> d = d'.
Proof. destruct a; cbn [goes_to]; congruence. Qed.

Lemma follows_out ifs o es cs : follows ifs (EvOut o :: es) cs <->
  exists ord sends cs', cs = sends ++ cs' /\ Permutation (oe_wait o) ord /\ Forall2 (send_for ifs) ord sends /\ follows ifs es cs'.
Proof. split; [intros H; inversion H; subst; repeat eexists; eauto|]. intros (ord & sends & cs' & -> & H1 & H2 & H3). econstructor; eauto. Qed.
Lemma follows_done ifs o es cs : oe_wait o = [] -> (follows ifs (EvOut o :: es) cs <-> follows ifs es cs).
Proof. intros W. rewrite follows_out, W. split.
  - intros (ord & sends & cs' & -> & P & F & H). apply Permutation_nil in P. subst ord. inversion F; subst. exact H.
  - intros H. exists [], [], cs. repeat split; auto; constructor. Qed.
Lemma follows_send ifs o o' es cs a p dev m : NoDup (dkeys (oe_wait o)) -> goes_to ifs a dev -> dget dev (oe_wait o) = Some m -> meets m p -> oe_wait o' = ddel dev (oe_wait o) ->
  (follows ifs (EvOut o :: es) (CSend a p :: cs) <-> follows ifs (EvOut o' :: es) cs).
Proof. intros N G D M W. pose proof (ddel_perm _ _ _ N D) as PD. rewrite !follows_out, W. split.
  - intros (ord & sends & cs' & E & P & F & H). destruct F as [|[k mm] c ord sends X F]; [rewrite PD in P; symmetry in P; apply Permutation_nil in P; discriminate|].
    cbn [app] in E. assert (Ec : c = CSend a p) by congruence. assert (Es : cs = sends ++ cs') by congruence. subst c cs.
    destruct X as (a' & p' & X1 & X2 & X3). injection X1 as <- <-. cbn [fst snd] in *. pose proof (goes_to_fun _ _ _ _ G X2) as ->.
    assert (I : In (k, mm) (oe_wait o)) by (eapply Permutation_in; [symmetry; exact P|left; reflexivity]). apply (In_dget _ _ _ N) in I. assert (mm = m) by congruence. subst mm.
    exists ord, sends, cs'. split; [reflexivity|]. split; [|split; assumption]. rewrite PD in P. apply Permutation_cons_inv in P. exact P.
  - intros (ord & sends & cs' & -> & P & F & H). exists ((dev, m) :: ord), (CSend a p :: sends), cs'. split; [reflexivity|]. split; [rewrite PD; constructor; exact P|].
    split; [|exact H]. constructor; [|exact F]. exists a, p. auto. Qed.
Lemma follows_out_first ifs o es cs c : oe_wait o <> [] -> follows ifs (EvOut o :: es) (c :: cs) ->
  exists a p dev m, c = CSend a p /\ goes_to ifs a dev /\ In (dev, m) (oe_wait o) /\ meets m p.
Proof. intros W. rewrite follows_out. intros (ord & sends & cs' & E & P & F & H). destruct F as [|[k m] c' ord sends X F]; [symmetry in P; apply Permutation_nil in P; congruence|].
  cbn [app] in E. injection E as <- _. destruct X as (a & p & -> & X2 & X3). exists a, p, k, m. repeat split; auto. eapply Permutation_in; [symmetry; exact P|left; reflexivity]. Qed.
Lemma follows_out_nil ifs o es : oe_wait o <> [] -> ~ follows ifs (EvOut o :: es) [].
Proof. intros W. rewrite follows_out. intros (ord & sends & cs' & E & P & F & H). destruct F; [symmetry in P; apply Permutation_nil in P; congruence|discriminate]. Qed.

Definition evs (t : tnet) : list event := map sv_ev (sc_pend (t_scen t)).
Definition ready (t : tnet) : Prop :=
  Forall open_ev (sc_pend (t_scen t)) /\ Forall (deliverable (sc_ifs (t_scen t))) (evs t) /\
  Forall (fun e => prt (sv_ev e)) (sc_pend (t_scen t)) /\ Forall (fun e => ev_shows (sv_ev e) = true) (sc_done (t_scen t)).
Lemma ready_prints t : ready t -> summary_prints (t_scen t) = true.
Proof. intros (_ & _ & R3 & R4). unfold summary_prints. rewrite forallb_app. apply andb_true_intro. split; apply forallb_forall; intros x Hx.
  - rewrite Forall_forall in R4. auto.
  - rewrite Forall_forall in R3. apply R3 in Hx as [Hx _]. exact Hx. Qed.
Lemma follows_nil t : ready t -> (follows (sc_ifs (t_scen t)) (evs t) [] <-> sc_pend (t_scen t) = []).
Proof. intros (R1 & R2 & _). unfold evs. destruct (sc_pend (t_scen t)) as [|e l]; [split; [reflexivity|constructor]|]. inversion R1 as [|? ? O _]; subst. split; [|discriminate].
  intros H. exfalso. cbn [map] in H. unfold open_ev in O. destruct (sv_ev e); [inversion H|inversion H|]. eapply follows_out_nil; [apply O|exact H]. Qed.
Lemma step_follows t c t1 a cs : ready t -> printable_call c -> do_call t c = (t1, a) ->
  ready t1 /\ sc_ifs (t_scen t1) = sc_ifs (t_scen t) /\
  (fine c a -> follows (sc_ifs (t_scen t)) (evs t) (c :: cs) <-> follows (sc_ifs (t_scen t)) (evs t1) cs) /\
  (~ fine c a -> t1 = t /\ ~ follows (sc_ifs (t_scen t)) (evs t) (c :: cs) /\ exists e, a = AnsExn e) /\
  (c = CRecv -> a = AnsExn EShutdown -> sc_pend (t_scen t) = []).
Proof. intros (R1 & R2 & R3 & R4) Pc H. unfold ready, evs in *. destruct c as [|da p]; cbn [do_call] in H.
  - unfold t_recv in H. destruct (sc_pend (t_scen t)) as [|e rest] eqn:P.
    { injection H as <- <-. rewrite P. split; [repeat apply conj; assumption|]. split; [reflexivity|]. split; [intros []|]. split; [|reflexivity]. intros _. split; [reflexivity|]. split; [|eauto]. intros K. inversion K. }
    cbn [map] in R2. inversion R1 as [|? ? O R1']; inversion R2 as [|? ? D R2']; inversion R3 as [|? ? [Pe Pf] R3']; subst. rewrite (testpass_ok e rest (t_scen t) Pe R3') in H. cbn [map].
    assert (R4' : Forall (fun e => ev_shows (sv_ev e) = true) (sc_done (t_scen t) ++ [sev_reread e])) by (apply Forall_app; split; [exact R4|constructor; [exact Pf|constructor]]).
    destruct (sv_ev e) as [dev q|n|o] eqn:Ev.
    + destruct D as (D1 & p' & b & q' & D2 & D3). unfold generate in H. rewrite D2 in H. cbn [bindr] in H. rewrite D3 in H. cbn [bindr] in H. cbn [t_scen with_queue sc_ifs sc_pend sc_done sc_timer] in H.
      rewrite on_last_app in H. apply din_iff in D1. rewrite D1 in H. injection H as <- <-. cbn [t_scen with_queue sc_pend sc_ifs sc_done]. split; [repeat apply conj; assumption|]. split; [reflexivity|].
      split; [|split; [intros K; exfalso; apply K; exact I|discriminate]]. intros _. split; [intros K; inversion K; assumption|constructor; assumption].
    + cbn [generate with_queue sc_pend sc_done sc_timer] in H. rewrite on_last_app in H. injection H as <- <-. cbn [t_scen with_queue sc_pend sc_ifs sc_done]. split; [repeat apply conj; assumption|]. split; [reflexivity|].
      split; [|split; [intros K; exfalso; apply K; exact I|discriminate]]. intros _. split; [intros K; inversion K; assumption|constructor; assumption].
    + unfold fail_naming in H. rewrite Pe in H. injection H as <- <-. rewrite P. cbn [map]. rewrite Ev. split; [repeat apply conj; try assumption; constructor; auto; exact I|]. split; [reflexivity|]. split; [intros []|]. split; [|discriminate]. intros _. split; [reflexivity|]. split; [|eauto].
      unfold open_ev in O. rewrite Ev in O. intros K. apply follows_out_first in K as (? & ? & ? & ? & K & _); [discriminate|apply O].
  - destruct (t_send t da p) as [t2 r] eqn:E. injection H as <- <-. unfold t_send in E. destruct (sc_pend (t_scen t)) as [|e rest] eqn:P.
    { injection E as <- <-. rewrite P. split; [repeat apply conj; assumption|]. split; [reflexivity|]. split; [intros []|]. split; [|discriminate]. intros _. split; [reflexivity|]. split; [|eauto]. intros K. inversion K. }
    cbn [map] in R2. inversion R1 as [|? ? O R1']; inversion R2 as [|? ? D R2']; inversion R3 as [|? ? [Pe Pf] R3']; subst. cbn [map]. destruct (dev_name da (t_scen t)) as [dev|x] eqn:Dn.
    2:{ injection E as <- <-. rewrite P. cbn [map]. split; [repeat apply conj; assumption|]. split; [reflexivity|]. split; [intros []|]. split; [|discriminate]. intros _. split; [reflexivity|]. split; [|eauto].
      destruct (sv_ev e) as [? ?|?|o] eqn:Ev; [intros K; inversion K..|]. intros K. unfold open_ev in O. rewrite Ev in O. apply follows_out_first in K as (a' & p' & dev & m & K & G & _); [|apply O].
      injection K as <- <-. apply goes_to_iff in G. congruence. }
    apply goes_to_iff in Dn. destruct (sv_ev e) as [? ?|?|o] eqn:Ev;
      [injection E as <- <-; rewrite P; cbn [map]; rewrite ?Ev; split; [repeat apply conj; assumption|]; split; [reflexivity|]; split; [intros []|]; split; [|discriminate]; intros _; split; [reflexivity|]; split; [intros K; inversion K|eauto]..|].
    unfold open_ev in O. rewrite Ev in O. destruct O as [N W]. destruct (out_match o dev p) as [o' [x|x]] eqn:M.
    + destruct (out_match_ok _ _ _ _ _ M) as (m & p' & M1 & M2 & M3 & M4 & M5 & M6). pose proof (out_match_prints _ _ _ _ _ M Pc Pe) as Sh.
      assert (Mp : meets m p) by (exists p'; exact M2). pose proof (fun cs => follows_send (sc_ifs (t_scen t)) o o' (map sv_ev rest) cs da p dev m N Dn M1 Mp M3) as FS.
      destruct x; [congruence|rewrite (testpass_ok (mkSev (EvOut o') (sv_desc e) (sv_time e)) rest (t_scen t) Sh R3') in E|]; injection E as <- <-; cbn [t_scen with_head with_queue sc_pend sc_done sc_ifs map sv_ev].
      * split; [repeat apply conj; try assumption; apply Forall_app; split; [exact R4|constructor; [exact Sh|constructor]]|]. split; [reflexivity|].
        split; [|split; [intros K; exfalso; apply K; exact I|discriminate]]. intros _. rewrite FS. apply follows_done. apply M5. reflexivity.
      * split; [repeat apply conj; try assumption; constructor; auto|]. { unfold open_ev. cbn [sv_ev]. split; [rewrite M3; apply ddel_NoDup; exact N|]. intros K. apply M5 in K. discriminate. } { split; exact Sh. }
        split; [reflexivity|]. split; [|split; [intros K; exfalso; apply K; exact I|discriminate]]. intros _. apply FS.
    + pose proof (out_match_err _ _ _ _ _ M) as ->. injection E as <- <-. cbn [t_scen with_head sc_pend sc_ifs sc_done map sv_ev].
      split; [repeat apply conj; try assumption; constructor; auto|]. { unfold open_ev. cbn [sv_ev]. auto. } { split; exact Pe. } split; [reflexivity|]. split; [intros []|]. split; [|discriminate]. intros _. split; [|split; [|eauto]].
      { destruct t as [[n i f pe dn tm nx tmo] tt0], e as [ev d ts]. cbn in P, Ev |- *. unfold with_head. cbn. rewrite P, Ev. reflexivity. }
      intros K. apply follows_out_first in K as (a' & q & dev' & m & K & G & I1 & I2); [|exact W]. injection K as <- <-. rewrite (goes_to_fun _ _ _ _ G Dn) in I1.
      apply (In_dget _ _ _ N) in I1. assert (exists o1 x1, out_match o dev p = (o1, Ok x1)) as (o1 & x1 & K) by (apply out_match_accepts; eauto). congruence. Qed.

(** The calls of a run all go well and leave nothing pending exactly when they follow the script. *)
Theorem run_follows cs : forall t t' l, ready t -> Forall printable_call cs -> t_run t cs = (t', l) ->
  ((Forall2 fine cs l /\ sc_pend (t_scen t') = []) <-> follows (sc_ifs (t_scen t)) (evs t) cs).
Proof. induction cs as [|c cs IH]; intros t t' l R Pc H; cbn [t_run] in H; [|inversion Pc as [|? ? Pc1 Pc2]; subst].
  - injection H as <- <-. rewrite (follows_nil t R). split; [tauto|]. intros K. split; [constructor|exact K].
  - destruct (do_call t c) as [t1 a] eqn:C. destruct (t_run t1 cs) as [t2 l2] eqn:T. injection H as <- <-. destruct (step_follows _ _ _ _ cs R Pc1 C) as (R1 & Q & F1 & F2 & _).
    specialize (IH _ _ _ R1 Pc2 T). rewrite Q in IH. split.
    + intros [F P]. inversion F; subst. apply F1; [assumption|]. apply IH. auto.
    + intros F. assert (K : fine c a \/ ~ fine c a). { destruct c, a as [r| |[]]; cbn [fine]; tauto. } destruct K as [K|K]; [|apply F2 in K; tauto].
      apply F1 in F; [|exact K]. apply IH in F as [F P]. split; [constructor; assumption|exact P]. Qed.
(** A program and what it is told. *)
Theorem runs_calls t p t' tr e : runs t p t' tr e -> t_run t (map fst tr) = (t', map snd tr).
Proof. induction 1 as [| | |t c k t1 a t2 tr e C R IH|t c k t2 tr e A R IH]; cbn [map t_run fst snd]; try reflexivity; [|exact IH]. rewrite C, IH. reflexivity. Qed.
Definition shut (x : call * answer) : bool := match snd x with AnsExn EShutdown => true | _ => false end.
Definition real_calls (tr : list (call * answer)) : list call := map fst (filter (fun x => negb (shut x)) tr).
Definition went_well (e : ending) : Prop := e = EndReturn \/ e = EndRaise EShutdown.
Theorem honest_report t p t' tr e : runs t p t' tr e -> ready t -> honest p -> (forall a q, ~ In (CSend a q, AnsExn EShutdown) tr) -> Forall printable_call (map fst tr) ->
  (reports_pass (t_scen t') e = true <-> went_well e /\ follows (sc_ifs (t_scen t)) (evs t) (real_calls tr)).
Proof. unfold went_well. induction 1 as [t|t x|t A|t c k t1 a t2 tr e C R IH|t c k t2 tr e A R IH]; intros Rd Hp NS Pc; unfold reports_pass.
  - change (real_calls []) with (@nil call). rewrite (follows_nil t Rd), (ready_prints t Rd). cbn [andb]. unfold failed_test. destruct (sc_pend (t_scen t)); split; auto; try discriminate. intros [_ ?]. discriminate.
  - inversion Hp; subst. rewrite (ready_prints t Rd). cbn [andb]. destruct x; try contradiction; split; try discriminate; intros [[?|?] _]; discriminate.
  - rewrite (ready_prints t Rd). cbn [andb]. split; [discriminate|]. intros [[?|?] _]; discriminate.
  - cbn [map fst] in Pc. inversion Pc as [|? ? Pc1 Pc2]; subst. fold (reports_pass (t_scen t2) e). destruct (step_follows _ _ _ _ (real_calls tr) Rd Pc1 C) as (R1 & Q & F1 & F2 & F3). inversion Hp as [| |? ? K1 K2 K3]; subst.
    assert (NS' : forall a q, ~ In (CSend a q, AnsExn EShutdown) tr) by (intros b q I; apply (NS b q); right; exact I).
    assert (K : fine c a \/ ~ fine c a). { destruct c, a as [r| |[]]; cbn [fine]; tauto. } destruct K as [K|K].
    + specialize (IH R1 (K1 a K) NS' Pc2). rewrite IH, Q. unfold real_calls. cbn [filter].
      assert (S : shut (c, a) = false) by (destruct c, a as [r| |[]]; cbn [fine] in K; try contradiction; reflexivity). rewrite S. cbn [negb map fst]. rewrite (F1 K). tauto.
    + destruct (F2 K) as (-> & NF & x & ->). assert (Dx : x = EShutdown \/ x <> EShutdown) by (destruct x; auto; right; discriminate). destruct Dx as [->|Nx].
      * destruct c as [|b q]; [|exfalso; apply (NS b q); left; reflexivity]. specialize (F3 eq_refl eq_refl). unfold real_calls. cbn [filter shut snd negb].
        destruct (K3 eq_refl) as [E|Hk].
        -- rewrite E in R. inversion R; subst. unfold reports_pass. rewrite (ready_prints _ Rd). cbn [andb filter map]. split; [|reflexivity]. intros _. split; [auto|]. apply (follows_nil _ Rd). exact F3.
        -- apply (IH Rd Hk NS' Pc2).
      * rewrite (K2 x K Nx) in R. inversion R; subst. unfold reports_pass. rewrite (ready_prints _ Rd). cbn [andb]. destruct x; try contradiction; split; try discriminate; intros [[?|?] _]; discriminate.
  - inversion Hp as [| |? ? K1 K2 K3]; subst. assert (K : ~ fine c (AnsExn ETestFail)) by (destruct c; cbn [fine]; tauto).
    rewrite (K2 ETestFail K) in R by discriminate. inversion R; subst. rewrite (ready_prints _ Rd). cbn [andb]. split; [discriminate|]. intros [[?|?] _]; discriminate. Qed.
