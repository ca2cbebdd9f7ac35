(** Proofs about starting user code and the threads of start_framework. *)
From Verif Require Import Base BaseLemmas EthAddrModel UserModel UserSpec UserProofs.

Definition kvals (kw : tdict) : list (text * val) := map (fun x => (fst x, VText (snd x))) kw.
Lemma start_call : forall sg args kw b, start_usercode sg args kw = Ok b -> sg_pos sg <> [] /\
  call sg (VNet :: if sg_star sg then map VText args else []) (if sg_kw sg then kvals kw else []) = Ok b.
Proof.
  intros sg args kw b H. unfold start_usercode in H. cbv zeta in H.
  destruct (Nat.ltb_spec (length (sg_pos sg)) 1) as [L|L]; [discriminate|]. split; [intros E; rewrite E in L; cbn in L; lia|].
  destruct (sg_star sg), (sg_kw sg); exact H.
Qed.
Lemma start_bound : forall sg args kw b, start_usercode sg args kw = Ok b ->
  exists n d ps rest, sg_pos sg = (n, d) :: ps /\ b_named b = (n, VNet) :: rest /\
  (if sg_star sg then firstn (length args) (firstn (length ps) (map snd rest)) ++ b_star b = map VText args
   else b_star b = [] /\ forall k v, In (k, v) rest -> v = VDefault \/ v = VNet \/ (sg_kw sg = true /\ In (k, v) (kvals kw))) /\
  (if sg_kw sg then (forall k v, In (k, v) kw -> In (k, VText v) (b_named b) \/ In (k, VText v) (b_kw b)) /\ (forall k v, In (k, v) (b_kw b) -> In (k, v) (kvals kw))
   else b_kw b = []).
Proof.
  intros sg args kw b H. apply start_call in H. destruct H as [Np H]. destruct (sg_pos sg) as [|[n d] ps] eqn:Ep; [congruence|].
  pose proof (call_ok _ _ _ _ H) as (C1 & C2 & C3 & C4 & C5 & C6). rewrite Ep in C1, C2. cbn [map fst app length] in C1, C2.
  destruct (b_named b) as [|[n' v'] rest] eqn:Eb; [discriminate|]. cbn [map fst snd firstn app] in C1, C2. inversion C1; subst. inversion C2; subst.
  exists n, d, ps, rest. split; [reflexivity|]. split; [reflexivity|]. split.
  - destruct (sg_star sg) eqn:St.
    + rewrite <- (map_length VText args). first [exact H2 | assumption | reflexivity].
    + split; [apply C3; reflexivity|]. intros k v Hi. destruct (C6 k v (or_intror Hi)) as [[<-|[]]|[Hk|Hk]]; auto.
      destruct (sg_kw sg); [auto|contradiction].
  - destruct (sg_kw sg) eqn:Sk.
    + split.
      * intros k v Hi. destruct (C4 k (VText v)) as [Hn|(_ & _ & Hn)]; [|left; exact Hn|right; exact Hn]. unfold kvals. apply in_map_iff. exists (k, v). auto.
      * intros k v Hi. apply C5 in Hi. apply Hi.
    + destruct (b_kw b) as [|[k v] l] eqn:El; [reflexivity|]. destruct (C5 k v (or_introl eq_refl)) as [E _]. discriminate.
Qed.
Lemma start_ok : forall n d star ko kwf args kw, Forall (fun p => snd p = true) ko ->
  (kwf = true -> forall k v, In (k, v) kw -> k <> n /\ ~ In k (map fst ko)) ->
  start_usercode (mkSig [(n, d)] star ko kwf) args kw =
    Ok (mkBound ((n, VNet) :: map (fun p => (fst p, VDefault)) ko) (if star then map VText args else []) (if kwf then kvals kw else [])).
Proof.
  intros n d star ko kwf args kw F Hk.
  assert (K : forall ks vs, (star = false -> vs = []) -> (kwf = false -> ks = []) -> (forall k v, In (k, v) ks -> k <> n /\ ~ In k (map fst ko)) ->
    call (mkSig [(n, d)] star ko kwf) (VNet :: vs) ks = Ok (mkBound ((n, VNet) :: map (fun p => (fst p, VDefault)) ko) vs ks)).
  { intros ks vs Hs Hw Hn. unfold call. cbn [sg_pos sg_star sg_kwonly sg_kw length fill_pos].
    assert (E : (1 <? S (length vs))%nat && negb star = false) by (destruct star; [apply andb_false_r|rewrite (Hs eq_refl); reflexivity]). rewrite E. cbv zeta.
    assert (E2 : fill_kw kwf (((n, Some VNet) :: []) ++ fill_pos ko []) [] ks = Ok ((n, Some VNet) :: fill_pos ko [], ks)).
    { destruct kwf; [|rewrite (Hw eq_refl); reflexivity]. rewrite fill_kw_free; [reflexivity|]. intros k v Hi. cbn [app map fst]. rewrite fill_pos_names.
      destruct (Hn k v Hi) as [H1 H2]. intros [E3|E3]; [congruence|auto]. }
    rewrite E2. cbn [bindr fst snd app finish]. rewrite finish_defaults by exact F. reflexivity. }
  unfold start_usercode. cbn [sg_pos sg_star sg_kw length Nat.ltb Nat.leb]. cbv zeta.
  assert (Kk : kwf = true -> forall k v, In (k, v) (kvals kw) -> k <> n /\ ~ In k (map fst ko)).
  { intros E k v Hi. unfold kvals in Hi. apply in_map_iff in Hi. destruct Hi as ([a b] & Ea & Hi). cbn [fst snd] in Ea. injection Ea as <- <-. exact (Hk E _ _ Hi). }
  fold (kvals kw).
  destruct star, kwf; cbn [andb]; apply K; auto; try discriminate; try exact (Kk eq_refl); try (intros k v []).
Qed.

(** ** Threads *)
Lemma frun_app : forall c l1 l2 s, f_run c s (l1 ++ l2) = (fst (f_run c (fst (f_run c s l1)) l2), snd (f_run c s l1) ++ snd (f_run c (fst (f_run c s l1)) l2)).
Proof.
  intros c. induction l1 as [|b l1 IH]; intros l2 s; cbn [app f_run]; [cbn [fst snd]; destruct (f_run c s l2); reflexivity|].
  destruct (if b then main_step c s else app_step s) as [[s' e]|]; [|apply IH].
  rewrite IH. destruct (f_run c s' l1) as [s2 es]. cbn [fst snd]. reflexivity.
Qed.
Definition f_step (c : cfg) (s : fst_) (b : bool) : fst_ * list fev :=
  match (if b then main_step c s else app_step s) with Some (s', e) => (s', [e]) | None => (s, []) end.
Lemma frun_snoc : forall c l b s, f_run c s (l ++ [b]) = (fst (f_step c (fst (f_run c s l)) b), snd (f_run c s l) ++ snd (f_step c (fst (f_run c s l)) b)).
Proof.
  intros. rewrite frun_app. cbn [f_run]. unfold f_step. destruct (if b then main_step c (fst (f_run c s l)) else app_step (fst (f_run c s l))) as [[s' e]|]; reflexivity.
Qed.
(** In the instructions left, the set-up flag comes after the firewall, and the barrier after the set-up flag (when [q]). *)
Fixpoint chk (q fw su : bool) (l : list minstr) : bool :=
  match l with
  | [] => true
  | MFwUp :: r => chk q true su r
  | MSetup :: r => fw && chk q fw true r
  | MBarrier :: r => (su || negb q) && chk q fw su r
  | MApp :: r => false
  | _ :: r => chk q fw su r
  end.
Definition has_barrier (l : list minstr) : bool := existsb (fun i => match i with MBarrier => true | _ => false end) l.
Lemma prog_chk : forall c, exists r, main_prog c = (if f_app c then [MApp] else []) ++ r /\ chk (prepared c) false false r = true /\ has_barrier r = reaches c.
Proof.
  intros [a co te us de fw ra nh dr]. eexists. split; [reflexivity|]. cbn [f_compile f_tests f_usercode f_devs f_fwok f_app].
  destruct co, te, us, de, fw, ra, dr; split; reflexivity.
Qed.
Definition saw (e : fev) (es : list fev) : Prop := In e es.
(** The invariant with an application thread. *)
Record finv (c : cfg) (s : fst_) (es : list fev) : Prop := mkFinv {
  i_chk : fa s <> ANone -> exists fw, chk (prepared c) fw (f_setup s) (fm s) = true /\ (fw = true -> In EvFwUp es);
  i_setup : f_setup s = true -> In EvFwUp es;
  i_none : fa s = ANone -> fm s = main_prog c /\ fm_at s = false /\ f_setup s = false /\ es = [];
  i_at : fm_at s = true -> (exists r, fm s = MBarrier :: r) /\ fa s <> AWait /\ (prepared c = true -> f_setup s = true);
  i_bar : (fa s = AStart \/ fa s = AWait) -> has_barrier (fm s) = reaches c;
  i_pass : (fa s = APassed \/ fa s = AEnded \/ fa s = ADone) -> reaches c = true /\ (prepared c = true -> f_setup s = true);
  i_runs : prepared c = true -> (fa s = AEnded \/ fa s = ADone) -> In EvAppRuns es;
  i_none_runs : In EvAppRuns es -> (fa s = AEnded \/ fa s = ADone) }.
Lemma finv_step : forall c s es b, f_app c = true -> finv c s es -> finv c (fst (f_step c s b)) (es ++ snd (f_step c s b)).
Proof.
  intros c s es b Ha V. unfold f_step.
  destruct (if b then main_step c s else app_step s) as [[s' e]|] eqn:E; cbn [fst snd]; [|rewrite app_nil_r; exact V].
  destruct V as [Vc Vs Vn Va Vb Vp Vr Vq]. destruct (prog_chk c) as (r0 & Ep & Ck & Hb). rewrite Ha in Ep. cbn [app] in Ep.
  assert (Mono : forall x, In x es -> In x (es ++ [e])) by (intros; apply in_or_app; auto).
  assert (Ev : forall x, In x (es ++ [e]) -> In x es \/ x = e) by (intros x Hx; apply in_app_or in Hx; destruct Hx as [Hx|[<-|[]]]; auto).
  assert (Me : In e (es ++ [e])) by (apply in_or_app; right; left; reflexivity).
  Ltac fin Ev Mono Me Vq := repeat match goal with
    | |- _ -> _ => intro
    | H : In EvAppRuns (_ ++ [?e]) |- _ => apply Ev in H; destruct H as [H|H]; [apply Vq in H|discriminate H]
    | H : _ \/ _ |- _ => destruct H
    | H : ?a = ?b |- _ => discriminate H
    | H : ?a <> ?a |- _ => exfalso; apply H; reflexivity
    end.
  destruct b.
  - (* main *)
    unfold main_step in E. destruct (fm s) as [|i r] eqn:Ef; [discriminate|].
    destruct (fa s) eqn:Es.
    { destruct (Vn eq_refl) as (E1 & E2 & E3 & ->). rewrite Ep in E1. inversion E1; subst. inversion E; subst; clear E.
      rewrite E3. constructor; cbn [fa fm fm_at f_setup]; try discriminate.
      * intros _. exists false. split; [exact Ck|discriminate].
      * intros _. exact Hb.
      * intros [H|[H|H]]; discriminate.
      * intros _ [H|H]; discriminate.
      * intros [H|[]]; discriminate. }
    all: destruct (Vc ltac:(discriminate)) as (fw & C1 & C2); destruct i; cbn [chk] in C1; cbn [has_barrier existsb orb] in Vb; rewrite ?Ha in E; try discriminate C1;
      try (apply andb_true_iff in C1; destruct C1 as [C0 C1]); try (destruct (fm_at s) eqn:Eat); try discriminate E; inversion E; subst; clear E;
      constructor; cbn [fa fm fm_at f_setup]; fin Ev Mono Me Vq; auto.
    all: try (exists true; split; [assumption|auto]; fail).
    all: try (exists fw; split; [assumption|auto]; fail).
    all: try (exfalso; destruct (Va eq_refl) as ((r' & Er) & _ & _); discriminate Er).
    all: try (exists fw; split; [cbn [chk]; rewrite C0, C1; reflexivity|auto]; fail).
    all: try (split; [apply Vp; auto|auto]; fail).
    all: assert (Su : prepared c = true -> f_setup s = true) by (intros Pp; rewrite Pp in C0; cbn in C0; rewrite orb_false_r in C0; exact C0).
    all: try (split; [eexists; reflexivity|split; [discriminate|exact Su]]; fail).
    all: try (split; [symmetry; apply Vb; auto|exact Su]; fail).
  - (* application *)
    unfold app_step in E. destruct (fa s) eqn:Es; try discriminate E; inversion E; subst; clear E; destruct (Vc ltac:(discriminate)) as (fw & C1 & C2);
    try (destruct (fm_at s) eqn:Eat); try (destruct (f_setup s) eqn:Est); constructor; cbn [fa fm fm_at f_setup]; try rewrite ?Eat; try rewrite ?Est; fin Ev Mono Me Vq; auto.
    all: try (exists fw; split; [assumption|auto]; fail).
    all: try (destruct (Va eq_refl) as (A1 & A2 & A3); split; [exact A1|split; [discriminate|exact A3]]; fail).
    all: try (destruct (Va eq_refl) as ((r & Er) & A2 & A3); split; [rewrite <- Vb by auto; rewrite Er; reflexivity|exact A3]; fail).
    all: try (apply Vp; auto; fail).
    all: try exact Me.
    all: try (apply Ev in H; destruct H as [H|H]; [apply Vq in H; destruct H; discriminate|discriminate H]; fail).
    all: exfalso; destruct (Vp (or_introl eq_refl)) as [_ Q]; specialize (Q H); discriminate Q.
Qed.
Lemma frun_ind : forall c (P : fst_ -> list fev -> Prop), P (f_new c) [] -> (forall s es b, P s es -> P (fst (f_step c s b)) (es ++ snd (f_step c s b))) ->
  forall l, P (fst (f_run c (f_new c) l)) (snd (f_run c (f_new c) l)).
Proof.
  intros c P H0 Hs. induction l as [|b l IH] using rev_ind; [exact H0|]. rewrite frun_snoc. apply Hs. exact IH.
Qed.
Lemma finv_new : forall c, finv c (f_new c) [].
Proof.
  intros c. constructor; cbn [f_new fa fm fm_at f_setup]; try discriminate.
  - intros H. exfalso. apply H. reflexivity.
  - auto.
  - intros [H|H]; discriminate.
  - intros [H|[H|H]]; discriminate.
  - intros _ [H|H]; discriminate.
  - intros [].
Qed.
Lemma finv_run : forall c l, f_app c = true -> finv c (fst (f_run c (f_new c) l)) (snd (f_run c (f_new c) l)).
Proof. intros c l Ha. revert l. apply frun_ind; [apply finv_new|]. intros s es b H. apply finv_step; assumption. Qed.

(** What does not depend on an application: the instructions done, the firewall and the network object. *)
Fixpoint fwof (a : bool) (l : list minstr) : bool := match l with [] => a | MFwUp :: r => fwof true r | MFwDown :: r => fwof false r | _ :: r => fwof a r end.
Fixpoint netof (a : option bool) (l : list minstr) : option bool :=
  match l with [] => a | MNet :: r => netof (Some false) r | MShutdown :: r => netof (match a with Some _ => Some true | None => None end) r | _ :: r => netof a r end.
Definition netr (x y : option bool) : Prop := match x with None => y = None | Some false => y <> None | Some true => y = Some true end.
Lemma fwof_app : forall l l' a, fwof a (l ++ l') = fwof (fwof a l) l'.
Proof. induction l as [|[]]; intros; cbn [app fwof]; auto. Qed.
Lemma netof_app : forall l l' a, netof a (l ++ l') = netof (netof a l) l'.
Proof. induction l as [|[]]; intros; cbn [app netof]; auto. Qed.
Record minv (c : cfg) (s : fst_) (es : list fev) : Prop := mkMinv {
  m_split : exists dn, main_prog c = dn ++ fm s /\ f_fw s = fwof false dn /\ netr (netof None dn) (f_net s);
  m_at : fm_at s = true -> exists r, fm s = MBarrier :: r;
  m_app : f_app c = false -> fa s = ANone;
  m_net : In EvNet es -> f_net s <> None }.
Lemma minv_step : forall c s es b, minv c s es -> minv c (fst (f_step c s b)) (es ++ snd (f_step c s b)).
Proof.
  intros c s es b V. unfold f_step. destruct (if b then main_step c s else app_step s) as [[s' e]|] eqn:E; cbn [fst snd]; [|rewrite app_nil_r; exact V].
  destruct V as [(dn & V1 & V2 & V3) Vat Va Vn].
  destruct b.
  - unfold main_step in E. destruct (fm s) as [|i r] eqn:Ef; [discriminate|].
    assert (Hs : main_prog c = (dn ++ [i]) ++ r) by (rewrite <- app_assoc; exact V1).
    assert (Hn : forall x, x <> EvNet -> In EvNet (es ++ [x]) -> f_net s <> None) by (intros x Nx Hi; apply in_app_or in Hi; destruct Hi as [Hi|[Hi|[]]]; auto; congruence).
    assert (Napp : f_app c = false -> i <> MApp).
    { intros Fa ->. pose proof (prog_chk c) as (r1 & Ep & Ck & _). rewrite Fa in Ep. cbn [app] in Ep. rewrite V1 in Ep. subst r1. clear -Ck.
      assert (G : forall q dn fw su, chk q fw su (dn ++ MApp :: r) = false).
      { clear. induction dn as [|[] dn IH]; intros; cbn [app chk]; rewrite ?IH, ?andb_false_r; reflexivity. }
      rewrite G in Ck. discriminate. }
    destruct i; try (injection E as <- <-; constructor; cbn [fm fm_at fa f_net f_fw];
      [eexists; split; [exact Hs|split; [rewrite fwof_app; cbn [fwof]; first [reflexivity|exact V2]|rewrite netof_app; cbn [netof]; first [exact V3|idtac]]]
      |discriminate|try exact Va; try (intros Fa; exfalso; exact (Napp Fa eq_refl))|try (intros Hi; refine (Hn _ _ Hi); discriminate)]).
    + (* barrier *)
      destruct (f_app c) eqn:Fa.
      * destruct (fm_at s) eqn:Eat.
        -- assert (X : s' = mkF r false (fa s) (f_fw s) (f_setup s) (f_net s) /\ e = EvNone) by (destruct (fa s); try discriminate E; injection E as <- <-; auto). destruct X as [-> ->].
           constructor; cbn [fm fm_at fa f_net f_fw]; [|discriminate|intros; congruence|intros Hi; refine (Hn _ _ Hi); discriminate].
           exists (dn ++ [MBarrier]). rewrite fwof_app, netof_app. cbn [fwof netof]. auto.
        -- injection E as <- <-. constructor; cbn [fm fm_at fa f_net f_fw]; [exists dn; auto|intros _; eauto|intros; congruence|intros Hi; refine (Hn _ _ Hi); discriminate].
      * injection E as <- <-. constructor; cbn [fm fm_at fa f_net f_fw]; [|discriminate|intros _; apply Va; reflexivity|intros Hi; refine (Hn _ _ Hi); discriminate].
        exists (dn ++ [MBarrier]). rewrite fwof_app, netof_app. cbn [fwof netof]. auto.
    + cbn [netr]. discriminate.
    + intros _. discriminate.
    + destruct (netof None dn) as [[]|]; cbn [netr] in V3 |- *; destruct (f_net s); congruence.
    + intros Hi. apply Hn in Hi; [|discriminate]. destruct (f_net s); congruence.
  - assert (Fa : f_app c <> false) by (intros Fa; specialize (Va Fa); unfold app_step in E; rewrite Va in E; discriminate).
    unfold app_step in E. destruct (fa s) eqn:Es; try discriminate E; injection E as <- <-; constructor; cbn [fm fm_at fa f_net f_fw]; try exact Vat; try (intros; contradiction);
      try (exists dn; auto; fail); try (intros Hi; apply in_app_or in Hi; destruct Hi as [Hi|[Hi|[]]]; [auto|]; try destruct (f_setup s); discriminate Hi).
    + exists dn. split; [exact V1|]. split; [exact V2|]. destruct (netof None dn) as [[]|]; cbn [netr] in V3 |- *; destruct (f_net s); congruence.
    + intros Hi. apply in_app_or in Hi. destruct Hi as [Hi|[Hi|[]]]; [|destruct (f_net s); discriminate Hi]. specialize (Vn Hi). destruct (f_net s); congruence.
Qed.
Lemma minv_run : forall c l, minv c (fst (f_run c (f_new c) l)) (snd (f_run c (f_new c) l)).
Proof.
  intros c. apply frun_ind; [|intros s es b H; apply minv_step; assumption]. constructor; cbn [f_new fm fm_at fa f_net f_fw]; try discriminate; try (intros [] || reflexivity). 2: reflexivity. exists []. split; [reflexivity|]. split; reflexivity.
Qed.

(** ** Results *)
Lemma after_firewall : forall c l pre post, snd (f_run c (f_new c) l) = pre ++ EvAppRuns :: post -> In EvFwUp pre.
Proof.
  intros c. induction l as [|b l IH] using rev_ind; intros pre post E; [destruct pre; discriminate|].
  rewrite frun_snoc in E. cbn [snd] in E.
  unfold f_step in E. destruct (if b then _ else _) as [[s' e]|] eqn:Es; cbn [snd] in E; [|rewrite app_nil_r in E; exact (IH _ _ E)].
  destruct (@exists_last _ (EvAppRuns :: post) ltac:(discriminate)) as (m & z & Ez). rewrite Ez, app_assoc in E. apply app_inj_tail in E. destruct E as [E ->].
  destruct m as [|y m]; cbn [app] in Ez; injection Ez as Ez Ez'.
  - subst z. rewrite app_nil_r in E. subst pre. destruct b.
    + unfold main_step in Es. destruct (fm _) as [|i r]; [discriminate|]. destruct i; try (injection Es as _ Es; discriminate Es).
      exfalso. destruct (f_app c); [destruct (fm_at _)|]; [destruct (fa _)| |]; inversion Es.
    + destruct (f_app c) eqn:Fa.
      * pose proof (finv_run c l Fa) as V. apply (i_setup _ _ _ V). unfold app_step in Es. destruct (fa _); try discriminate Es; try (injection Es as _ Es; discriminate Es).
        -- injection Es as _ Es. destruct (f_setup _); [reflexivity|discriminate].
        -- injection Es as _ Es. destruct (f_net _); discriminate.
      * pose proof (m_app _ _ _ (minv_run c l) Fa) as X. unfold app_step in Es. rewrite X in Es. discriminate.
  - subst y. eapply IH. exact E.
Qed.
Lemma idle_done : forall c l s es, f_run c (f_new c) l = (s, es) -> idle c s -> reaches c = true ->
  fm s = [] /\ fa s = (if f_app c then ADone else ANone) /\ (f_app c = true -> prepared c = true -> In EvAppRuns es).
Proof.
  intros c l s es R [Im Ia] Hr. pose proof (minv_run c l) as M. rewrite R in M. cbn [fst snd] in M. destruct (f_app c) eqn:Fa.
  - pose proof (finv_run c l Fa) as V. rewrite R in V. cbn [fst snd] in V.
    assert (F : fm s = [] \/ (exists r, fm s = MBarrier :: r /\ fm_at s = true /\ (fa s = ANone \/ fa s = AStart \/ fa s = AWait))).
    { unfold main_step in Im. destruct (fm s) as [|i r] eqn:Ef; [auto|]. right. destruct i; try discriminate Im. rewrite Fa in Im. destruct (fm_at s); [|discriminate].
      exists r. destruct (fa s); try discriminate Im; auto. }
    assert (D : fa s = ANone \/ fa s = AWait \/ fa s = ADone) by (unfold app_step in Ia; destruct (fa s); try discriminate; auto).
    destruct D as [D|[D|D]].
    + exfalso. destruct (i_none _ _ _ V D) as (E1 & E2 & _). pose proof (prog_chk c) as (r & Ep & _). rewrite Fa in Ep. rewrite Ep in E1.
      destruct F as [F|(r' & F & F2 & _)]; rewrite E1 in F; discriminate.
    + exfalso. pose proof (i_bar _ _ _ V (or_intror D)) as B. rewrite Hr in B. destruct F as [F|(r & F & F2 & _)]; [rewrite F in B; discriminate|].
      destruct (i_at _ _ _ V F2) as (_ & X & _). contradiction.
    + destruct F as [F|(r & _ & _ & [F|[F|F]])]; try congruence. split; [exact F|]. split; [exact D|]. intros _ Pp. apply (i_runs _ _ _ V Pp). auto.
  - split; [|split; [apply (m_app _ _ _ M Fa)|discriminate]]. unfold main_step in Im. destruct (fm s) as [|i r]; [reflexivity|]. destruct i; try discriminate Im. rewrite Fa in Im. discriminate.
Qed.
Definition rank (a : appst) : nat := match a with ANone => 5 | AStart => 4 | AWait => 3 | APassed => 2 | AEnded => 1 | ADone => 0 end.
Definition fmeas (s : fst_) : nat := 2 * length (fm s) - (if fm_at s then 1 else 0) + rank (fa s).
Lemma fmeas_step : forall c s (b : bool) s' e, minv c s [] -> (fa s <> ANone -> forall r, fm s <> MApp :: r) -> (if b then main_step c s else app_step s) = Some (s', e) -> (fmeas s' < fmeas s)%nat.
Proof.
  intros c s b s' e M Na E. destruct b.
  - unfold main_step in E. destruct (fm s) as [|i r] eqn:Ef; [discriminate|].
    assert (At : i <> MBarrier -> fm_at s = false).
    { intros Nj. destruct (fm_at s) eqn:Eat; [|reflexivity]. destruct (m_at _ _ _ M Eat) as (r2 & E2). rewrite Ef in E2. congruence. }
    destruct i; try (injection E as <- <-; unfold fmeas; cbn [fm fm_at fa]; rewrite Ef, At by discriminate; cbn [length]; lia).
    + injection E as <- <-. unfold fmeas; cbn [fm fm_at fa]. rewrite Ef, At by discriminate; cbn [length].
      destruct (fa s) eqn:Es; try (exfalso; refine (Na _ r eq_refl); discriminate). cbn [rank]. lia.
    + destruct (f_app c); [destruct (fm_at s) eqn:Eat|].
      * destruct (fa s) eqn:Es; try discriminate E; injection E as <- <-; unfold fmeas; cbn [fm fm_at fa]; rewrite Ef, Eat, Es; cbn [length rank]; lia.
      * injection E as <- <-. unfold fmeas; cbn [fm fm_at fa]. rewrite Ef, Eat. destruct (fa s); cbn [length rank]; lia.
      * injection E as <- <-. unfold fmeas; cbn [fm fm_at fa]. rewrite Ef. destruct (fm_at s); cbn [length]; lia.
  - unfold app_step in E. destruct (fa s) eqn:Es; try discriminate E; injection E as <- <-; unfold fmeas; cbn [fm fm_at fa]; rewrite Es; try destruct (fm_at s); cbn [rank]; lia.
Qed.

Lemma app_later : forall c l, f_app c = true -> let s := fst (f_run c (f_new c) l) in fa s <> ANone -> forall r, fm s <> MApp :: r.
Proof.
  intros c l Fa s Na r E. destruct (i_chk _ _ _ (finv_run c l Fa) Na) as (fw & C & _). unfold s in E. rewrite E in C. discriminate.
Qed.
Lemma steps_bound : forall c l, (length (snd (f_run c (f_new c) l)) + fmeas (fst (f_run c (f_new c) l)) <= 2 * length (main_prog c) + 5)%nat.
Proof.
  intros c. induction l as [|b l IH] using rev_ind; [unfold fmeas; cbn [f_run fst snd f_new fm fm_at fa rank length]; lia|].
  rewrite frun_snoc. cbn [fst snd]. rewrite app_length. unfold f_step.
  destruct (if b then _ else _) as [[s' e]|] eqn:E; cbn [fst snd length]; [|lia].
  assert (L : (fmeas s' < fmeas (fst (f_run c (f_new c) l)))%nat); [|lia].
  apply (fmeas_step c _ b s' e); [|destruct (f_app c) eqn:Fa; [apply app_later; exact Fa|]|exact E].
  - destruct (minv_run c l). constructor; auto.
  - intros N. rewrite (m_app _ _ _ (minv_run c l) Fa) in N. contradiction.
Qed.
Lemma waits_forever : forall c l s es, f_run c (f_new c) l = (s, es) -> f_app c = true -> reaches c = false -> fa s <> ADone /\ ~ In EvAppRuns es.
Proof.
  intros c l s es R Fa Hr. pose proof (finv_run c l Fa) as V. rewrite R in V. cbn [fst snd] in V. split.
  - intros D. destruct (i_pass _ _ _ V) as [X _]; [auto|congruence].
  - intros D. apply (i_none_runs _ _ _ V) in D. destruct (i_pass _ _ _ V) as [X _]; [tauto|congruence].
Qed.
Lemma shutdown_after : forall c l pre post, snd (f_run c (f_new c) l) = pre ++ EvAppRuns :: post -> In EvNet pre -> fa (fst (f_run c (f_new c) l)) = ADone -> In EvShutdown post.
Proof.
  intros c. induction l as [|b l IH] using rev_ind; intros pre post E Hn Hd; [destruct pre; discriminate|].
  rewrite frun_snoc in E, Hd. cbn [fst snd] in E, Hd. unfold f_step in E, Hd.
  destruct (if b then _ else _) as [[s' e]|] eqn:Es; cbn [fst snd] in E, Hd; [|rewrite app_nil_r in E; exact (IH _ _ E Hn Hd)].
  destruct (@exists_last _ (EvAppRuns :: post) ltac:(discriminate)) as (m & z & Ez). rewrite Ez, app_assoc in E. apply app_inj_tail in E. destruct E as [E ->].
  assert (Hs : In EvNet (snd (f_run c (f_new c) l))) by (rewrite E; apply in_or_app; auto).
  pose proof (m_net _ _ _ (minv_run c l) Hs) as Hf.
  destruct m as [|y m]; cbn [app] in Ez; injection Ez as Ez Ez'.
  - subst z. exfalso. destruct b.
    + unfold main_step in Es. destruct (fm _) as [|i r]; [discriminate|]. destruct i; try (injection Es as _ Es; discriminate Es).
      destruct (f_app c); [destruct (fm_at _)|]; [destruct (fa _)| |]; inversion Es.
    + unfold app_step in Es. destruct (fa _); try discriminate Es; try (injection Es as <- Es; discriminate).
      injection Es as _ Es. destruct (f_net _); discriminate.
  - subst y post.
    assert (Q : fa (fst (f_run c (f_new c) l)) = ADone \/ z = EvShutdown).
    { destruct b.
      - left. unfold main_step in Es. destruct (fm _) as [|i r]; [discriminate|]. destruct i; try (injection Es as <- <-; cbn [fa] in Hd; first [exact Hd|discriminate]).
        destruct (f_app c); [destruct (fm_at _)|]; [|injection Es as <- <-; cbn [fa] in Hd; destruct (fa _); congruence|injection Es as <- <-; exact Hd].
        destruct (fa _) eqn:Ea; try discriminate Es; injection Es as <- <-; cbn [fa] in Hd; congruence.
      - right. unfold app_step in Es. destruct (fa _); try discriminate Es; injection Es as <- <-; cbn [fa] in Hd; try discriminate Hd.
        + destruct (fm_at _); discriminate.
        + destruct (f_net _); [reflexivity|congruence]. }
    apply in_or_app. destruct Q as [Q|Q]; [left; eapply IH; eauto|right; left; auto].
Qed.
Lemma firewall_down : forall c l s es, f_run c (f_new c) l = (s, es) -> fm s = [] -> f_fw s = false.
Proof.
  intros c l s es R E. pose proof (minv_run c l) as M. rewrite R in M. destruct (m_split _ _ _ M) as (dn & V1 & V2 & _). cbn [fst] in *. rewrite E, app_nil_r in V1. subst dn. rewrite V2.
  destruct c as [a co te us de fw ra nh dr]. destruct a, co, te, us, de, fw, ra, dr; reflexivity.
Qed.
Lemma shut_at_end : forall c l s es, f_run c (f_new c) l = (s, es) -> fm s = [] -> f_compile c = false -> f_tests c = false -> f_devs c = true -> f_fwok c = true ->
  f_raises c = false \/ f_dryrun c = true -> f_net s = Some true.
Proof.
  intros c l s es R E H1 H2 H3 H4 H5. pose proof (minv_run c l) as M. rewrite R in M. destruct (m_split _ _ _ M) as (dn & V1 & _ & V3). cbn [fst] in *. rewrite E, app_nil_r in V1. subst dn.
  destruct c as [a co te us de fw ra nh dr]. cbn [f_compile f_tests f_devs f_fwok f_raises f_dryrun] in *. subst. destruct a, ra, dr; try exact V3; destruct H5; discriminate.
Qed.
