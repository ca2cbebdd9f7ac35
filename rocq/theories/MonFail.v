(** Proofs about monitors: what is listed, which histories go well, and what the failing kinds do. *)
From Coq Require Import List ZArith QArith Bool Lia String Ascii.
From Verif Require Import Dict DictLemmas CapModel MonModel MonSpec MonProofs MonMore.
Import ListNotations.
#[local] Open Scope string_scope.
#[local] Open Scope list_scope.
#[local] Open Scope nat_scope.

(** ** Where *)
Lemma everywhere_In t n i : In (n, i) (everywhere t) <-> exists is, In (n, is) t /\ In i is.
Proof.
  unfold everywhere. rewrite in_concat. split.
  - intros (l & H & K). apply in_map_iff in H as ([m is] & <- & H). apply in_map_iff in K as (j & [= <- <-] & K). eauto.
  - intros (is & H & K). exists (map (pair n) is). split; [apply in_map_iff; exists (n, is); auto|now apply in_map].
Qed.
Lemma located_exist t ws n i : names t ws n i -> exists is, In (n, is) t /\ In i is.
Proof.
  intros (l & r & L & H). unfold located in L. destruct ws as [|x ws]; [discriminate|].
  destruct (starts "any" x || starts "all" x); [injection L as <- <-; now apply everywhere_In|].
  destruct (starts "node" x || din x t); [|discriminate].
  assert (G : forall m r0, match dget m t with
     | None => Some ([], r0)
     | Some is => match r0 with
       | y :: r' => if String.prefix "eth" y then (if smem y is then Some ([(m, y)], r') else None) else Some (map (pair m) is, r0)
       | [] => Some (map (pair m) is, []) end end = Some (l, r) -> exists is, In (n, is) t /\ In i is).
  { intros m r0 E. destruct (dget m t) as [is|] eqn:D; [|injection E as <- <-; destruct H].
    apply dget_In in D.
    assert (M : In (n, i) (map (pair m) is) -> exists is, In (n, is) t /\ In i is).
    { intros M. apply in_map_iff in M as (j & [= <- <-] & M). eauto. }
    destruct r0 as [|y r']; [injection E as <- <-; auto|]. destruct (String.prefix "eth" y).
    - destruct (smem y is) eqn:Sm; [|discriminate]. injection E as <- <-. destruct H as [[= <- <-]|[]]. apply smem_In in Sm. eauto.
    - injection E as <- <-. auto. }
  destruct (din x t); [exact (G x ws L)|]. destruct ws as [|y ws]; [discriminate|]. exact (G y ws L).
Qed.
Lemma located_all t x ws n i : x = "any"%string \/ x = "all"%string -> (names t (x :: ws) n i <-> exists is, In (n, is) t /\ In i is).
Proof.
  intros X. assert (L : located t (x :: ws) = Some (everywhere t, ws)) by (destruct X as [-> | ->]; reflexivity).
  unfold names. rewrite L. rewrite <- everywhere_In. split.
  - intros (l & r & [= <- <-] & H). exact H.
  - intros H. eauto.
Qed.
Lemma located_node t m is ws n i : dget m t = Some is -> din "node" t = false ->
  match ws with x :: _ => String.prefix "eth" x = false | [] => True end ->
  (names t ("node"%string :: m :: ws) n i <-> n = m /\ In i is).
Proof.
  intros D N X. assert (L : located t ("node"%string :: m :: ws) = Some (map (pair m) is, ws)).
  { unfold located. change (starts "any" "node" || starts "all" "node") with false. change (starts "node" "node") with true. cbn [orb]. rewrite N, D.
    destruct ws as [|x ws]; [reflexivity|]. now rewrite X. }
  unfold names. rewrite L. split.
  - intros (l & r & [= <- <-] & H). apply in_map_iff in H as (j & [= <- <-] & H). auto.
  - intros [-> H]. exists (map (pair m) is), ws. split; [reflexivity|now apply in_map].
Qed.
Lemma located_intf t m is x ws n i : dget m t = Some is -> din "node" t = false -> String.prefix "eth" x = true ->
  (names t ("node"%string :: m :: x :: ws) n i <-> n = m /\ i = x /\ In x is).
Proof.
  intros D N X. assert (L : located t ("node"%string :: m :: x :: ws) = if smem x is then Some ([(m, x)], ws) else None).
  { unfold located. change (starts "any" "node" || starts "all" "node") with false. change (starts "node" "node") with true. cbn [orb]. rewrite N, D, X.
    reflexivity. }
  unfold names. rewrite L. rewrite <- smem_In. split.
  - destruct (smem x is); [|intros (l & r & [=] & _)]. intros (l & r & [= <- <-] & [[= <- <-]|[]]). auto.
  - intros (-> & -> & ->). exists [(m, x)], ws. split; [reflexivity|now left].
Qed.

(** ** File names *)
Lemma append_assoc a b c : append (append a b) c = append a (append b c).
Proof. induction a as [|x a IH]; [reflexivity|]. cbn. now rewrite IH. Qed.
Lemma append_len a b : String.length (append a b) = String.length a + String.length b.
Proof. induction a as [|x a IH]; [reflexivity|]. cbn. now rewrite IH. Qed.
Lemma append_inj_r a b c : append a c = append b c -> a = b.
Proof.
  revert b. induction a as [|x a IH]; intros [|y b] E; cbn in E; auto.
  - apply (f_equal String.length) in E. cbn in E. rewrite append_len in E. lia.
  - apply (f_equal String.length) in E. cbn in E. rewrite append_len in E. lia.
  - injection E as -> E. now rewrite (IH _ E).
Qed.
Lemma plain_no a b : plain (append a (String "_"%char b)) = false.
Proof. induction a as [|x a IH]; cbn; [reflexivity|]. rewrite IH. apply andb_false_r. Qed.
Lemma under_inj n i n' i' : plain i = true -> plain i' = true -> append n (append "_" i) = append n' (append "_" i') -> n = n' /\ i = i'.
Proof.
  intros P P'. revert n'. induction n as [|x n IH]; intros [|y n'] E; cbn in E.
  - injection E as E. auto.
  - injection E as _ E. rewrite E in P. change (append "_" i') with (String "_"%char i') in P. rewrite plain_no in P. discriminate.
  - injection E as _ E. rewrite <- E in P'. change (append "_" i) with (String "_"%char i) in P'. rewrite plain_no in P'. discriminate.
  - injection E as -> E. destruct (IH _ E) as [-> ->]. auto.
Qed.
Lemma mon_names n i n' i' base : plain i = true -> plain i' = true -> ends_with ".pcap" base = false ->
  file_name n i base = file_name n' i' base -> n = n' /\ i = i'.
Proof.
  intros P P' D E. unfold file_name in E. rewrite D in E. apply under_inj; auto.
  destruct (negb (str_eqb base "")).
  - apply (append_inj_r _ _ (append "_" (append base ".pcap"))). rewrite !append_assoc. exact E.
  - apply (append_inj_r _ _ ".pcap"). rewrite !append_assoc. exact E.
Qed.

Section Files.
Context (w : str -> bool).

(** ** What is listed *)
Definition Lst (s : state) : Prop := forall n i, shown s n i = kind_of_mon (att s n i).
Lemma lst_arrive a b now p s : Lst s -> Lst (arrive a b now p s).
Proof.
  intros L. destruct (arrive_cases a b now p s) as [->|[(_ & -> & _)|[(h' & x & _ & B & _ & ->)|[(_ & ->)|[(_ & _ & ->)|(_ & _ & ->)]]]]]; exact L.
Qed.
Lemma arrive_topo a b now p s : topo (arrive a b now p s) = topo s /\ (over (arrive a b now p s) = None -> over s = None).
Proof.
  destruct (arrive_cases a b now p s) as [->|[(_ & -> & _)|[(h' & x & _ & B & _ & ->)|[(_ & ->)|[(_ & _ & ->)|(_ & _ & ->)]]]]]; cbn; auto.
  split; [reflexivity|discriminate].
Qed.
Lemma lst_arrivals l s : Lst s -> Lst (arrivals l s) /\ topo (arrivals l s) = topo s /\ (over (arrivals l s) = None -> over s = None).
Proof.
  revert s. induction l as [|[[[a b] now] p] l IH]; intros s L; [auto|]. cbn. destruct (IH (arrive a b now p s)) as (A & B & C); [now apply lst_arrive|].
  destruct (arrive_topo a b now p s) as [D E]. split; [exact A|split; [exact (eq_trans B D)|intros X; exact (E (C X))]].
Qed.
Lemma lst_check s : Lst s -> Lst (check s) /\ topo (check s) = topo s.
Proof. destruct (check_cases s) as [[-> _]|(q & a & _ & ->)]; auto. Qed.
Lemma kind_upd (f : str -> str -> option kind) g n i k m : (forall a b, f a b = kind_of_mon (g a b)) -> k = kind_of_mon m ->
  forall a b, upd2 f n i k a b = kind_of_mon (upd2 g n i m a b).
Proof. intros H -> a b. rewrite !upd2_spec. destruct (_ && _); auto. Qed.
Lemma lst_add x l s : match x with HPcap base => Forall (fun '(n, i) => is_ascii (file_name n i base) = true) l | HCode _ => False | _ => True end ->
  Lst s -> Lst (fold_left (add_at w x) l s).
Proof.
  revert s. induction l as [|[n i] l IH]; intros s F L; [exact L|]. cbn [fold_left]. apply IH.
  - destruct x; auto. now inversion F.
  - unfold add_at, add_monitor, construct. destruct x as [base| |f|]; cbn [kind_of].
    + inversion F as [|? ? F1 F2]; subst. rewrite F1. destruct (w _); cbn -[upd2]; intros a b; cbn -[upd2]; now apply kind_upd.
    + intros a b. cbn -[upd2]. now apply kind_upd.
    + destruct F.
    + exact L.
Qed.
Lemma lst_cmd s c m1 m2 : simple_line (topo s) (Line m1 c m2) -> Lst s ->
  Lst (run_cmd w c s) /\ (over (run_cmd w c s) = None -> topo (run_cmd w c s) = match c with Rebuild t => t | _ => topo s end).
Proof.
  intros S L. destruct c as [ws|ws|t| |]; cbn [run_cmd simple_line] in *.
  - unfold do_monitor. destruct (located (topo s) ws) as [[l r]|] eqn:E; [|auto]. destruct (how_of r) as [x|] eqn:H; [|auto].
    split; [|intros _; apply fold_add_rest]. apply lst_add; auto. destruct x as [base| |f|]; auto.
    apply Forall_forall. intros [n i] K. destruct (located_exist (topo s) ws n i) as (is & A & B); [exists l, r; auto|]. exact (S n is i A B).
  - unfold do_unmonitor. destruct (located (topo s) ws) as [[l r]|] eqn:E; [|auto]. 
    split.
    + intros a b. destruct (fold_remove l s a b) as (_ & _ & _ & _ & _ & _ & G & H & _).
      destruct (in_dec pair_dec (a, b) l) as [I|I]; [destruct (G I) as [-> ->]; reflexivity|destruct (H I) as [-> ->]; apply L].
    + intros _. destruct (fold_remove l s EmptyString EmptyString) as (A & _). exact A.
  - destruct (rebuild_cases t s) as (s' & T & Sh & A & _ & _ & _ & _ & _ & _ & [->|[_ ->]]).
    + split; [intros a b; cbn; rewrite Sh, A; apply L|discriminate].
    + destruct (reset_frame (mgr s) (fresh_nodes t s')) as (B & C & D & _). split; [|auto]. intros a b. rewrite C, D. reflexivity.
  - unfold leave. destruct (stop_nodes (dkeys (topo s)) s) as [s' b] eqn:E. apply stop_frame in E as (T & Sh & A & _).
    destruct b; (split; [intros x y; cbn; rewrite Sh, A; apply L|discriminate]).
  - auto.
Qed.
Lemma check_over s : over (check s) = None -> over s = None /\ check s = s.
Proof. destruct (check_cases s) as [[-> _]|(q & a & _ & ->)]; [auto|discriminate]. Qed.
Lemma lst_step s e : (over s = None -> simple_line (topo s) e) -> Lst s ->
  Lst (step w s e) /\ (over (step w s e) = None -> over s = None /\ topo (step w s e) = match e with Line _ (Rebuild t) _ => t | _ => topo s end).
Proof.
  intros S L. destruct e as [[[[a b] now] p]|m1 c m2].
  - cbn [step arrive1]. destruct (arrive_topo a b now p s) as [T O]. split; [now apply lst_arrive|]. intros H. split; auto.
  - cbn [step]. destruct (over s) eqn:O; [split; [exact L|congruence]|]. specialize (S eq_refl). unfold run_line.
    destruct (lst_check s L) as [L0 T0]. destruct (lst_arrivals m1 _ L0) as (L1 & T1 & O1). set (s1 := arrivals m1 (check s)) in *.
    assert (T01 : topo s1 = topo s) by congruence.
    assert (X : Lst (alive (run_cmd w c) s1) /\ (over (alive (run_cmd w c) s1) = None -> topo (alive (run_cmd w c) s1) = match c with Rebuild t => t | _ => topo s end)).
    { unfold alive. destruct (over s1) eqn:V; [split; [exact L1|congruence]|]. rewrite <- T01. apply lst_cmd with m1 m2; auto. now rewrite T01. }
    destruct X as [L2 T2]. destruct (lst_arrivals m2 _ L2) as (L3 & T3 & O3). set (s3 := arrivals m2 _) in *.
    unfold alive at 1 2 3. destruct (over s3) eqn:V; [split; [exact L3|congruence]|].
    split; [now apply lst_check|]. intros H. split; [reflexivity|]. destruct (lst_check s3 L3) as [_ ->]. rewrite T3, T2 by auto. destruct c; reflexivity.
Qed.
Lemma lst_run l s : (over s = None -> simple (topo s) l) -> Lst s -> Lst (run w l s).
Proof.
  revert s. induction l as [|e l IH]; intros s S L; [exact L|]. cbn. destruct (lst_step s e) as [L1 T1]; [intros O; apply (S O)|exact L|].
  apply IH; [|exact L1]. intros O. destruct (T1 O) as [O' ->]. destruct (S O') as [_ S2]. destruct e as [|? c ?]; [exact S2|]. destruct c; exact S2.
Qed.
Lemma mon_listed t l n i : simple t l -> shown (run w l (start t)) n i = kind_of_mon (att (run w l (start t)) n i).
Proof. intros S. apply lst_run; [intros _; exact S|]. intros a b. reflexivity. Qed.

(** ** Code monitors *)
Definition Brk (s : state) : Prop := over s = None -> In Broken (mgr s).
Lemma fold_add_mgr x l s m : In m (mgr s) -> In m (mgr (fold_left (add_at w x) l s)).
Proof.
  revert s. induction l as [|[n i] l IH]; intros s H; [exact H|]. cbn [fold_left]. apply IH.
  unfold add_at, add_monitor, construct. destruct x as [base| |f|]; cbn [kind_of]; try (destruct (negb (is_ascii _)); [|destruct (w _)]); cbn; auto;
    apply in_or_app; auto.
Qed.
Lemma fold_remove_mgr l s m : In m (mgr s) -> In m (mgr (fold_left (fun s '(n, i) => remove_monitor n i s) l s)).
Proof. revert s. induction l as [|[n i] l IH]; intros s H; [exact H|]. cbn [fold_left]. apply IH. cbn. apply in_or_app; auto. Qed.
Definition Bad (s : state) : Prop := over s = None -> In Broken (mgr s) \/ In PcapNull (mgr s).
Lemma bad_rebuild t s : over s = None -> In Broken (mgr s) \/ In PcapNull (mgr s) -> over (rebuild t s) <> None.
Proof.
  intros O B. destruct (rebuild_cases t s) as (s' & _ & _ & _ & _ & _ & _ & _ & Ov & _ & [->|[_ ->]]); [discriminate|].
  rewrite (reset_over (mgr s)) by (cbn; congruence). intros [X Y]. destruct B; auto.
Qed.
Lemma bad_arrive a b now p s : Bad s -> Bad (arrive a b now p s) /\ Ext any s (arrive a b now p s).
Proof.
  intros B. destruct (arrive_cases a b now p s) as [->|[(_ & -> & _)|[(h' & x & _ & _ & _ & ->)|[(_ & ->)|[(_ & _ & ->)|(_ & _ & ->)]]]]];
    (split; [try exact B|apply ext_any]); try (exists []; now rewrite app_nil_r); try (eexists; reflexivity).
  - eexists. cbn. rewrite <- app_assoc. reflexivity.
  - intros X. discriminate X.
Qed.
Lemma bad_check s : Bad s -> Bad (check s) /\ Ext any s (check s).
Proof.
  intros B. destruct (check_cases s) as [[-> _]|(q & a & _ & ->)]; (split; [|now apply Ext_same]); [exact B|]. intros X. discriminate X.
Qed.
Lemma bad_cmd s c : over s = None -> Bad s -> Bad (run_cmd w c s) /\ Ext any s (run_cmd w c s).
Proof.
  intros O B. specialize (B O). destruct c as [ws|ws|t| |]; cbn [run_cmd].
  - unfold do_monitor. destruct (located _ ws) as [[l r]|]; [|split; [intros _; exact B|now apply Ext_same]].
    destruct (how_of r) as [x|]; [|split; [intros _; exact B|now apply Ext_same]]. split.
    + intros _. destruct B; [left|right]; now apply fold_add_mgr.
    + apply (fold_all (fun _ => True)); auto. intros s' p _. split; [exact I|]. apply ext_any. destruct (add_at_seen w x s' p) as (d & E & _). now exists d.
  - unfold do_unmonitor. destruct (located _ ws) as [[l r]|]; [|split; [intros _; exact B|now apply Ext_same]]. split.
    + intros _. destruct B; [left|right]; now apply fold_remove_mgr.
    + apply (fold_all (fun _ => True)); auto. intros s' [n i] _. split; [exact I|now apply Ext_same].
  - split; [intros X; destruct (bad_rebuild t s O B X)|].
    destruct (rebuild_cases t s) as (s' & _ & _ & _ & _ & _ & _ & S & _ & _ & [->|[_ ->]]); [now apply Ext_same|].
    eapply Ext_trans; [|apply reset_ext; exact (fun _ => I)]. now apply Ext_same.
  - unfold leave. destruct (stop_nodes (dkeys (topo s)) s) as [s' b] eqn:E. apply stop_frame in E as (_ & _ & _ & _ & _ & _ & S & _).
    destruct b; (split; [intros X; discriminate X|now apply Ext_same]).
  - split; [intros _; exact B|now apply Ext_same].
Qed.
Lemma bad_run l s : Bad s -> Bad (run w l s).
Proof.
  intros B. apply (all_run w Bad any (fun _ => True)); auto.
  - intros. now apply bad_arrive.
  - intros. now apply bad_check.
  - intros. now apply bad_cmd.
  - apply all_ok. auto.
Qed.
Lemma over_stays_arrivals l s : over s <> None -> over (arrivals l s) <> None.
Proof.
  revert s. induction l as [|[[[a b] now] p] l IH]; intros s H; [exact H|]. apply (IH (arrive a b now p s)).
  intros X. apply H. now apply (arrive_topo a b now p s).
Qed.
Lemma alive_over f s : over s <> None -> over (alive f s) <> None.
Proof. unfold alive. destruct (over s) eqn:E; congruence. Qed.
Lemma bad_line s m1 t m2 : Bad s -> over (step w s (Line m1 (Rebuild t) m2)) <> None.
Proof.
  intros B. cbn [step]. destruct (over s) eqn:O; [congruence|]. unfold run_line.
  apply alive_over, over_stays_arrivals.
  destruct (bad_check s B) as [B0 _].
  assert (B1 : Bad (arrivals m1 (check s))). { apply (all_arrivals Bad any); [intros; now apply bad_arrive|exact B0]. }
  unfold alive. destruct (over (arrivals m1 (check s))) eqn:O1; [congruence|]. cbn [run_cmd]. apply bad_rebuild; auto.
Qed.
Lemma over_stays_step s e : over s <> None -> over (step w s e) <> None.
Proof.
  intros H. destruct e as [[[[a b] now] p]|m1 c m2].
  - cbn [step arrive1]. destruct (arrive_topo a b now p s) as [_ E]. auto.
  - cbn [step]. destruct (over s) eqn:O; [congruence|contradiction].
Qed.
Lemma over_stays l s : over s <> None -> over (run w l s) <> None.
Proof. revert s. induction l as [|e l IH]; intros s H; [exact H|]. cbn. apply IH. now apply over_stays_step. Qed.

Lemma fold_add_code f l n i s : In (n, i) l ->
  let s' := fold_left (add_at w (HCode f)) l s in
  (exists d, seen s' = seen s ++ d /\ In (Failed n i EType) d) /\ shown s' n i = Some KCode /\ (forall a b, att s' a b = att s a b) /\ In Broken (mgr s').
Proof.
  cbv zeta. assert (A0 : forall l s a b, att (fold_left (add_at w (HCode f)) l s) a b = att s a b).
  { clear. induction l as [|[n i] l IH]; intros s a b; [reflexivity|]. cbn [fold_left]. now rewrite IH. }
  assert (E0 : forall l s, exists d, seen (fold_left (add_at w (HCode f)) l s) = seen s ++ d).
  { clear. induction l as [|p l IH]; intros s; [exists []; now rewrite app_nil_r|]. cbn [fold_left]. destruct (IH (add_at w (HCode f) s p)) as [d E].
    destruct (add_at_seen w (HCode f) s p) as (d' & E' & _). exists (d' ++ d). now rewrite E, E', app_assoc. }
  assert (S0 : forall l s, shown s n i = Some KCode -> shown (fold_left (add_at w (HCode f)) l s) n i = Some KCode).
  { clear. induction l as [|[a b] l IH]; intros s E; [exact E|]. cbn [fold_left]. apply IH. cbn -[upd2].
    destruct (upd2_cases (shown s) a b (Some KCode) n i) as [(_ & _ & ->)|[_ ->]]; auto. }
  revert s. induction l as [|[a b] l IH]; intros s H; [destruct H|]. cbn [fold_left].
  assert (D : (a, b) = (n, i) \/ (a, b) <> (n, i)) by (destruct (pair_dec (a, b) (n, i)); auto).
  destruct D as [D|D].
  - injection D as -> ->. repeat split.
    + destruct (E0 l (add_at w (HCode f) s (n, i))) as [d E]. exists (Failed n i EType :: d).
      split; [rewrite E; cbn; rewrite <- app_assoc; reflexivity|now left].
    + apply S0. cbn -[upd2]. apply upd2_same.
    + intros. now rewrite A0.
    + apply fold_add_mgr. cbn. apply in_or_app. right. now left.
  - destruct H as [H|H]; [congruence|]. destruct (IH (add_at w (HCode f) s (a, b)) H) as ((d & E & K) & B & C & M). repeat split; auto.
    exists (Failed a b EType :: d). split; [rewrite E; cbn; now rewrite <- app_assoc|now right].
Qed.
Lemma mon_code s ws l r f n i : over s = None -> queue s = [] -> located (topo s) ws = Some (l, r) -> how_of r = Some (HCode f) -> In (n, i) l ->
  let s' := enter w (Monitor ws) s in
  (exists d, seen s' = seen s ++ d /\ In (Failed n i EType) d) /\ shown s' n i = Some KCode /\ (forall a b, att s' a b = att s a b) /\
  forall evs m1 t m2, over (step w (run w evs s') (Line m1 (Rebuild t) m2)) <> None.
Proof.
  intros O Q L H In0. cbv zeta. rewrite (enter_monitor w s ws l r _ O Q L H).
  destruct (fold_add_code f l n i s In0) as (A & B & C & M). repeat split; auto.
  intros. apply bad_line, bad_run. intros _. now left.
Qed.

(** ** Files that cannot be written *)
Lemma fold_add_null base l n i s : In (n, i) l -> is_ascii (file_name n i base) = true -> w (file_name n i base) = false ->
  let s' := fold_left (add_at w (HPcap base)) l s in
  att s' n i = PcapNull /\ shown s' n i = Some KPcap /\ In PcapNull (mgr s') /\ exists d, seen s' = seen s ++ d /\ forall e, ~ In (Failed n i e) d.
Proof.
  intros H A W. cbv zeta.
  assert (G : forall l s, (exists d, seen (fold_left (add_at w (HPcap base)) l s) = seen s ++ d /\ forall e, ~ In (Failed n i e) d)).
  { clear -A W. induction l as [|[a b] l IH]; intros s; [exists []; split; [now rewrite app_nil_r|auto]|]. cbn [fold_left].
    destruct (IH (add_at w (HPcap base) s (a, b))) as (d & E & N).
    assert (K : exists d0, seen (add_at w (HPcap base) s (a, b)) = seen s ++ d0 /\ forall e, ~ In (Failed n i e) d0).
    { unfold add_at, add_monitor, construct. cbn [kind_of]. destruct (is_ascii (file_name a b base)) eqn:X; cbn [negb].
      - destruct (w (file_name a b base)); [|exists []; split; [cbn; now rewrite app_nil_r|auto]]. eexists. split; [reflexivity|]. intros e [Y|[]]. discriminate.
      - exists [Failed a b EValue]. split; [reflexivity|]. intros e [Y|[]]. injection Y as -> ->. congruence. }
    destruct K as (d0 & E0 & N0). exists (d0 ++ d). split; [rewrite E, E0; now rewrite app_assoc|]. intros e Y. apply in_app_or in Y as [Y|Y]; [exact (N0 e Y)|exact (N e Y)]. }
  assert (G2 : att (fold_left (add_at w (HPcap base)) l s) n i = PcapNull /\ shown (fold_left (add_at w (HPcap base)) l s) n i = Some KPcap /\
               In PcapNull (mgr (fold_left (add_at w (HPcap base)) l s))).
  { induction l as [|p l IH] using rev_ind; [destruct H|]. rewrite fold_left_app. cbn [fold_left]. set (s1 := fold_left _ l s) in *.
    destruct (pair_dec p (n, i)) as [->|D].
    - unfold add_at, add_monitor, construct. cbn [kind_of]. rewrite A, W. cbn -[upd2]. rewrite !upd2_same. repeat split. apply in_or_app. right. now left.
    - apply in_app_or in H as [H|[H|[]]]; [|congruence]. destruct (IH H) as (B & K & M).
      destruct (add_at_frame w (HPcap base) s1 p n i) as [F1 F2]; [congruence|]. rewrite F1, F2. repeat split; auto.
      exact (fold_add_mgr (HPcap base) [p] s1 PcapNull M). }
  destruct G2 as (B & K & M). repeat split; auto.
Qed.
Lemma mon_null s ws l r base n i : over s = None -> queue s = [] -> located (topo s) ws = Some (l, r) -> how_of r = Some (HPcap base) -> In (n, i) l ->
  is_ascii (file_name n i base) = true -> w (file_name n i base) = false ->
  let s' := enter w (Monitor ws) s in
  (exists d, seen s' = seen s ++ d /\ forall e, ~ In (Failed n i e) d) /\
  (forall now b, nodes s n = Running -> over (step w s' (Arrive (n, i, now, Ok b))) = Some Segv) /\
  forall evs m1 t m2, over (step w (run w evs s') (Line m1 (Rebuild t) m2)) <> None.
Proof.
  intros O Q L H In0 A W. cbv zeta. rewrite (enter_monitor w s ws l r _ O Q L H).
  destruct (fold_add_null base l n i s In0 A W) as (B & C & M & D). destruct (fold_add_rest w (HPcap base) l s) as (_ & _ & N & V).
  repeat split; auto.
  - intros now b R. cbn [step arrive1]. unfold arrive. rewrite V, O, N, R, B. reflexivity.
  - intros. apply bad_line, bad_run. intros _. now right.
Qed.

(** ** Debug monitors *)
Definition Stuck (n : str) (s : state) : Prop := nodes s n = Waiting /\ In n (dkeys (topo s)).
Definition not_got (n : str) (o : obs) : Prop := match o with Got a _ _ _ => a <> n | _ => True end.
Lemma upd1_other {A} (f : str -> A) n x a : a <> n -> upd1 f n x a = f a.
Proof. intros N. unfold upd1. now rewrite str_eqb_neq. Qed.
Lemma stuck_arrive n s a b now p : Stuck n s -> Stuck n (arrive a b now p s) /\ Ext (not_got n) s (arrive a b now p s).
Proof.
  intros [W T]. destruct (arrive_cases a b now p s) as [->|[(R & -> & _)|[(h' & x & R & _ & _ & ->)|[(R & ->)|[(R & _ & ->)|(R & _ & ->)]]]]];
    try (assert (X : a <> n) by congruence); (split; [split; cbn; rewrite ?upd1_other by congruence; assumption|]); try (now apply Ext_same).
  - eapply Ext_one; [reflexivity|exact X].
  - exists [Written h' (dump_record now x); Got a b now p]. split; [cbn; now rewrite <- app_assoc|].
    constructor; [exact I|constructor; [exact X|constructor]].
Qed.
Lemma stuck_check n s : Stuck n s -> Stuck n (check s) /\ Ext (not_got n) s (check s).
Proof. intros H. destruct (check_cases s) as [[-> _]|(q & a & _ & ->)]; (split; [exact H|now apply Ext_same]). Qed.
Lemma stop_stuck n ns s : nodes s n = Waiting -> In n ns -> exists s', stop_nodes ns s = (s', false) /\ nodes s' n = Waiting.
Proof.
  revert s. induction ns as [|m ns IH]; intros s W H; [destruct H|]. cbn [stop_nodes]. destruct (string_dec m n) as [->|D].
  - rewrite W. eauto.
  - destruct H as [H|H]; [congruence|]. destruct (nodes s m); try (apply IH; [cbn; rewrite upd1_other by congruence; exact W|exact H]). eauto.
Qed.
Lemma stuck_rebuild n t s : Stuck n s -> over (rebuild t s) = Some Hung /\ Stuck n (rebuild t s) /\ seen (rebuild t s) = seen s.
Proof.
  intros [W T]. unfold rebuild. destruct (stop_stuck n _ s W T) as (s' & E & W'). rewrite E. apply stop_frame in E as (T' & _ & _ & _ & _ & _ & S & _).
  repeat split; cbn; auto. now rewrite T'.
Qed.
Lemma stuck_leave n s : Stuck n s -> over (leave s) = Some Hung /\ Stuck n (leave s) /\ seen (leave s) = seen s.
Proof.
  intros [W T]. unfold leave. destruct (stop_stuck n _ s W T) as (s' & E & W'). rewrite E. apply stop_frame in E as (T' & _ & _ & _ & _ & _ & S & _).
  repeat split; cbn; auto. now rewrite T'.
Qed.
Lemma stuck_cmd n s c : Stuck n s -> Stuck n (run_cmd w c s) /\ Ext (not_got n) s (run_cmd w c s).
Proof.
  intros H. destruct c as [ws|ws|t| |]; cbn [run_cmd].
  - unfold do_monitor. destruct (located _ ws) as [[l r]|]; [|split; [exact H|now apply Ext_same]].
    destruct (how_of r) as [x|]; [|split; [exact H|now apply Ext_same]]. apply fold_all; [|exact H]. intros s' p [W T].
    destruct (add_at_rest w x s' p) as (A & _ & B & _). split; [split; [now rewrite B|now rewrite A]|].
    destruct (add_at_seen w x s' p) as (d & E & _ & G). exists d. split; [exact E|]. apply Forall_forall. intros o K. destruct o; cbn; auto.
    intros ->. assert (Y : In (now, p0) (got n i d)).
    { unfold got. apply in_flat_map. exists (Got n i now p0). split; [exact K|]. rewrite !str_eqb_refl. now left. }
    rewrite G in Y. destruct Y.
  - unfold do_unmonitor. destruct (located _ ws) as [[l r]|]; [|split; [exact H|now apply Ext_same]].
    apply fold_all; [|exact H]. intros s' [a b] K. split; [exact K|now apply Ext_same].
  - destruct (stuck_rebuild n t s H) as (_ & A & B). split; [exact A|now apply Ext_same].
  - destruct (stuck_leave n s H) as (_ & A & B). split; [exact A|now apply Ext_same].
  - split; [exact H|now apply Ext_same].
Qed.
Lemma stuck_run n l s : Stuck n s -> Stuck n (run w l s) /\ Ext (not_got n) s (run w l s).
Proof.
  intros H. apply (all_run w (Stuck n) (not_got n) (fun _ => True)); auto.
  - intros. now apply stuck_arrive.
  - intros. now apply stuck_check.
  - intros. now apply stuck_cmd.
  - apply all_ok. auto.
Qed.
(** A line with something in the queue is the last one. *)
Definition Due (s : state) : Prop := over s = None -> queue s <> [].
Lemma due_arrive a b now p s : Due s -> Due (arrive a b now p s).
Proof.
  intros D. destruct (arrive_cases a b now p s) as [->|[(_ & -> & _)|[(h' & x & _ & _ & _ & ->)|[(_ & ->)|[(_ & _ & ->)|(_ & _ & ->)]]]]]; try exact D.
  - intros X. discriminate X.
  - intros _. cbn. destruct (queue s); discriminate.
Qed.
Lemma due_line s m1 c m2 : Due s -> over (step w s (Line m1 c m2)) <> None.
Proof.
  intros D. cbn [step]. destruct (over s) eqn:O; [congruence|]. unfold run_line. apply alive_over, over_stays_arrivals, alive_over, over_stays_arrivals.
  intros X. apply check_over in X as [_ X]. specialize (D O). unfold check in X. destruct (queue s); [contradiction|].
  apply (f_equal over) in X. cbn in X. congruence.
Qed.
Lemma due_run l s : Due s -> (exists m1 c m2, In (Line m1 c m2) l) -> over (run w l s) <> None.
Proof.
  revert s. induction l as [|e l IH]; intros s D (m1 & c & m2 & H); [destruct H|]. cbn.
  destruct e as [[[[a b] now] p]|n1 d n2].
  - apply IH; [now apply due_arrive|]. destruct H as [H|H]; [discriminate|]. eauto.
  - apply over_stays. now apply due_line.
Qed.

(** Nodes that have not ended are in the topology. *)
Definition Known (s : state) : Prop := forall n, nodes s n <> Ended -> In n (dkeys (topo s)).
Lemma known_arrive s a b now p : Known s -> Known (arrive a b now p s) /\ Ext any s (arrive a b now p s).
Proof.
  intros K. destruct (arrive_cases a b now p s) as [->|[(_ & -> & _)|[(h' & x & _ & _ & _ & ->)|[(R & ->)|[(_ & _ & ->)|(R & _ & ->)]]]]];
    (split; [try exact K|apply ext_any]); try (exists []; now rewrite app_nil_r); try (eexists; reflexivity).
  - eexists. cbn. rewrite <- app_assoc. reflexivity.
  - intros n. cbn. unfold upd1. destruct (str_spec n a); [congruence|apply K].
  - intros n. cbn. unfold upd1. destruct (str_spec n a) as [->|]; [|apply K]. intros _. apply K. congruence.
Qed.
Lemma known_stop ns s s' b : stop_nodes ns s = (s', b) -> Known s -> Known s'.
Proof.
  revert s. induction ns as [|m ns IH]; cbn [stop_nodes]; intros s E K; [injection E as <- _; exact K|].
  assert (K' : Known (set_life m Ended s)). { intros n. cbn. unfold upd1. destruct (str_spec n m); [congruence|apply K]. }
  destruct (nodes s m); try (now apply IH in E). injection E as <- _. exact K.
Qed.
Lemma known_cmd s c : Known s -> Known (run_cmd w c s) /\ Ext any s (run_cmd w c s).
Proof.
  intros H. destruct c as [ws|ws|t| |]; cbn [run_cmd].
  - unfold do_monitor. destruct (located _ ws) as [[l r]|]; [|split; [exact H|now apply Ext_same]].
    destruct (how_of r) as [x|]; [|split; [exact H|now apply Ext_same]]. apply fold_all; [|exact H]. intros s' p K.
    destruct (add_at_rest w x s' p) as (A & _ & B & _). split; [unfold Known; rewrite A, B; exact K|].
    apply ext_any. destruct (add_at_seen w x s' p) as (d & E & _). now exists d.
  - unfold do_unmonitor. destruct (located _ ws) as [[l r]|]; [|split; [exact H|now apply Ext_same]].
    apply fold_all; [|exact H]. intros s' [a b] K. split; [exact K|now apply Ext_same].
  - unfold rebuild. destruct (stop_nodes (dkeys (topo s)) s) as [s' b] eqn:E. pose proof (known_stop _ _ _ _ E H) as K.
    apply stop_frame in E as (T & _ & _ & M & _ & _ & S & _). destruct b; [|split; [exact K|now apply Ext_same]].
    change (mkS t _ _ _ _ _ _ _ _) with (fresh_nodes t s'). destruct (reset_frame (mgr s') (fresh_nodes t s')) as (A & _ & _ & B & _). split.
    + intros n. rewrite A, B. cbn -[din dkeys]. intros X. apply din_iff. destruct (din n t); [auto|congruence].
    + eapply Ext_trans; [|apply reset_ext; exact (fun _ => I)]. now apply Ext_same.
  - unfold leave. destruct (stop_nodes (dkeys (topo s)) s) as [s' b] eqn:E. pose proof (known_stop _ _ _ _ E H) as K.
    apply stop_frame in E as (T & _ & _ & M & _ & _ & S & _). destruct b; (split; [exact K|now apply Ext_same]).
  - split; [exact H|now apply Ext_same].
Qed.
Lemma known_reach s : reach w s -> Known s.
Proof.
  intros (t & l & ->). apply (all_run w Known any (fun _ => True)).
  - intros. now apply known_arrive.
  - intros s _ K. destruct (check_cases s) as [[-> _]|(q & a & _ & ->)]; (split; [exact K|now apply Ext_same]).
  - intros. now apply known_cmd.
  - apply all_ok. auto.
  - intros n. cbn -[din dkeys]. intros X. apply din_iff. destruct (din n t); [auto|congruence].
Qed.
Lemma mon_debug s n i now p : reach w s -> over s = None -> nodes s n = Running -> att s n i = Debug ->
  let s' := step w s (Arrive (n, i, now, p)) in
  forall evs, (exists d, seen (run w evs s') = seen s' ++ d /\ forall a t q, ~ In (Got n a t q) d) /\
  ((exists m1 c m2, In (Line m1 c m2) evs) -> over (run w evs s') <> None).
Proof.
  intros R O N A. cbv zeta. cbn [step arrive1]. 
  assert (E : arrive n i now p s = set_life n Waiting (mkS (topo s) (shown s) (att s) (mgr s) (queue s ++ [n]) (nodes s) (nexth s) (seen s) (over s))).
  { unfold arrive. now rewrite O, N, A. }
  assert (S : Stuck n (arrive n i now p s)).
  { rewrite E. split; cbn; [unfold upd1; now rewrite str_eqb_refl|]. apply (known_reach s R). congruence. }
  intros evs. split.
  - destruct (stuck_run n evs _ S) as (_ & d & E' & F). exists d. split; [exact E'|]. intros a t q H. rewrite Forall_forall in F. now apply F in H.
  - apply due_run. intros _. rewrite E. cbn. destruct (queue s); discriminate.
Qed.
Lemma mon_debug_hang s n i now p c m : reach w s -> over s = None -> queue s = [] -> nodes s n = Running -> att s n i = Debug ->
  match c with Rebuild _ | Exit => True | _ => False end ->
  over (step w s (Line [(n, i, now, p)] c m)) = Some Hung \/ over (step w s (Line [(n, i, now, p)] c m)) = Some Segv.
Proof.
  intros R O Q N A C. cbn [step]. rewrite O. unfold run_line. rewrite (check_same s Q). 
  assert (E : arrivals [(n, i, now, p)] s = set_life n Waiting (mkS (topo s) (shown s) (att s) (mgr s) (queue s ++ [n]) (nodes s) (nexth s) (seen s) (over s))).
  { unfold arrivals. cbn [fold_left arrive1]. unfold arrive. now rewrite O, N, A. }
  set (s1 := arrivals [(n, i, now, p)] s) in *. assert (S : Stuck n s1).
  { rewrite E. split; cbn; [unfold upd1; now rewrite str_eqb_refl|]. apply (known_reach s R). congruence. }
  assert (O1 : over s1 = None) by (rewrite E; exact O).
  assert (X : over (alive (run_cmd w c) s1) = Some Hung).
  { unfold alive. rewrite O1. destruct c; try contradiction; cbn [run_cmd]; [apply (stuck_rebuild n t s1 S)|apply (stuck_leave n s1 S)]. }
  assert (Y : forall l s, over s = Some Hung \/ over s = Some Segv -> over (arrivals l s) = Some Hung \/ over (arrivals l s) = Some Segv).
  { clear. induction l as [|[[[a b] now] p] l IH]; intros s H; [exact H|]. cbn. apply IH.
    destruct (arrive_cases a b now p s) as [->|[(_ & -> & _)|[(h' & x & _ & _ & _ & ->)|[(R & ->)|[(_ & _ & ->)|(R & _ & ->)]]]]]; auto. }
  pose proof (Y m _ (or_introl X)) as Z. unfold alive at 1 3. destruct (over (arrivals m _)) eqn:V; [now rewrite V|]. destruct Z; discriminate.
Qed.

(** ** Files stay open until a rebuild *)
Lemma mon_open l s : Forall no_rebuild l -> exists d, seen (run w l s) = seen s ++ d /\ forall h, ~ In (Closed h) d.
Proof.
  intros F. set (P := fun o => forall h, o <> Closed h).
  assert (X : True /\ Ext P s (run w l s)).
  { apply (all_run w (fun _ => True) P (fun c => match c with Rebuild _ => False | _ => True end)); auto.
    - intros s0 a b now p _. split; [exact I|].
      destruct (arrive_cases a b now p s0) as [->|[(_ & -> & _)|[(h' & x & _ & _ & _ & ->)|[(R & ->)|[(_ & _ & ->)|(R & _ & ->)]]]]]; try (now apply Ext_same).
      + eapply Ext_one; [reflexivity|discriminate].
      + exists [Written h' (dump_record now x); Got a b now p]. split; [cbn; now rewrite <- app_assoc|]. repeat constructor; discriminate.
    - intros s0 _ _. split; [exact I|]. destruct (check_cases s0) as [[-> _]|(q & a & _ & ->)]; now apply Ext_same.
    - intros s0 c K _ _. split; [exact I|]. destruct c as [ws|ws|t| |]; cbn [run_cmd]; try contradiction.
      + unfold do_monitor. destruct (located _ ws) as [[l0 r]|]; [|now apply Ext_same]. destruct (how_of r) as [x|]; [|now apply Ext_same].
        apply (fold_all (fun _ => True)); auto. intros s' [n i] _. split; [exact I|]. unfold add_at, add_monitor, construct.
        destruct x as [base| |f|]; cbn [kind_of]; try (destruct (negb (is_ascii _)); [|destruct (w _)]);
          try (now apply Ext_same); (eapply Ext_one; [reflexivity|discriminate]).
      + unfold do_unmonitor. destruct (located _ ws) as [[l0 r]|]; [|now apply Ext_same]. apply (fold_all (fun _ => True)); auto.
        intros s' [n i] _. split; [exact I|now apply Ext_same].
      + unfold leave. destruct (stop_nodes (dkeys (topo s0)) s0) as [s' b] eqn:E. apply stop_frame in E as (_ & _ & _ & _ & _ & _ & S & _).
        destruct b; now apply Ext_same.
      + now apply Ext_same.
    - eapply Forall_impl; [|exact F]. intros [|m1 c m2]; cbn; auto. }
  destruct X as [_ (d & E & G)]. exists d. split; [exact E|]. intros h H. rewrite Forall_forall in G. now apply (G _ H h).
Qed.
End Files.

(** ** Histories that go well *)
Section Good.
Context (w : str -> bool).
Definition Good (s : state) : Prop :=
  over s = None /\ queue s = [] /\ (forall n, nodes s n <> Waiting) /\ (forall n i, att s n i = Null \/ exists h, att s n i = Pcap h) /\
  ~ In Broken (mgr s) /\ ~ In PcapNull (mgr s).
Lemma good_arrive s a b now p : Good s -> Good (arrive a b now p s) /\ Ext any s (arrive a b now p s).
Proof.
  intros (O & Q & N & A & B & C).
  destruct (arrive_cases a b now p s) as [->|[(_ & -> & _)|[(h' & x & _ & _ & _ & ->)|[(R & ->)|[(_ & X & ->)|(R & X & ->)]]]]].
  - split; [repeat split; auto|now apply Ext_same].
  - split; [repeat split; auto|apply ext_any; eexists; reflexivity].
  - split; [repeat split; auto|apply ext_any]. eexists. cbn. rewrite <- app_assoc. reflexivity.
  - split; [repeat split; auto|now apply Ext_same]. intros n. cbn. unfold upd1. destruct (str_spec n a); [discriminate|apply N].
  - destruct (A a b) as [Y|[h Y]]; congruence.
  - destruct (A a b) as [Y|[h Y]]; congruence.
Qed.
Lemma good_add x l s : match x with HPcap base => Forall (fun '(n, i) => is_ascii (file_name n i base) = true /\ w (file_name n i base) = true) l | HNone => True | _ => False end ->
  Good s -> Good (fold_left (add_at w x) l s).
Proof.
  revert s. induction l as [|[n i] l IH]; intros s F G; [exact G|]. cbn [fold_left]. apply IH.
  - destruct x; auto. now inversion F.
  - destruct G as (O & Q & N & A & B & C). destruct x as [base| |f|]; try contradiction.
    + inversion F as [|? ? F0 F3]; subst. destruct F0 as [F1 F2]. unfold add_at. rewrite add_monitor_pcap by auto. repeat split; cbn -[upd2]; auto.
      * intros a b. destruct (upd2_cases (att s) n i (Pcap (nexth s)) a b) as [(_ & _ & ->)|[_ ->]]; eauto.
      * intros X. apply in_app_or in X as [X|[X|[]]]; [auto|discriminate].
      * intros X. apply in_app_or in X as [X|[X|[]]]; [auto|discriminate].
    + repeat split; auto.
Qed.
Lemma good_arrivals l s : Good s -> Good (arrivals l s) /\ topo (arrivals l s) = topo s.
Proof.
  revert s. induction l as [|[[[a b] now] p] l IH]; intros s G; [auto|]. cbn. destruct (IH (arrive a b now p s)) as [X Y]; [now apply good_arrive|].
  split; [exact X|]. destruct (arrive_topo a b now p s). etransitivity; eassumption.
Qed.
Lemma stop_none_waits l s : (forall n, nodes s n <> Waiting) -> snd (stop_nodes l s) = true.
Proof.
  revert s. induction l as [|m l IH]; cbn [stop_nodes]; intros s N; [reflexivity|].
  assert (N' : forall n, nodes (set_life m Ended s) n <> Waiting). { intros n. cbn. unfold upd1. destruct (str_spec n m); [discriminate|apply N]. }
  destruct (nodes s m) eqn:M; [exact (IH _ N')|now destruct (N m)|exact (IH _ N')].
Qed.
Lemma good_step s e : good_line w (topo s) e -> Good s -> Good (step w s e) /\ topo (step w s e) = match e with Line _ (Rebuild t) _ => t | _ => topo s end.
Proof.
  intros L G. destruct e as [[[[a b] now] p]|m1 c m2].
  - split; [now apply good_arrive|apply arrive_topo].
  - cbn [step]. destruct G as (O & Q & G'). pose proof (conj O (conj Q G') : Good s) as G. rewrite O. unfold run_line. rewrite (check_same s Q).
    destruct (good_arrivals m1 s G) as [G1 T1]. set (s1 := arrivals m1 s) in *.
    assert (X : Good (alive (run_cmd w c) s1) /\ topo (alive (run_cmd w c) s1) = match c with Rebuild t => t | _ => topo s end).
    { unfold alive. rewrite (proj1 G1). destruct c as [ws|ws|t| |]; cbn [run_cmd good_line] in *.
      - unfold do_monitor. rewrite T1. destruct (located (topo s) ws) as [[l r]|]; [|auto]. destruct (how_of r) as [x|]; [|auto]. split.
        + apply good_add; auto. destruct x; auto. apply Forall_forall. intros [n i]. apply L.
        + destruct (fold_add_rest w x l s1) as (A & _). congruence.
      - unfold do_unmonitor. destruct (located (topo s1) ws) as [[l r]|]; [|auto].
        split; [|destruct (fold_remove l s1 EmptyString EmptyString) as (A & _); congruence].
        clear -G1. revert G1. generalize s1. induction l as [|[n i] l IH]; intros s' G; [exact G|]. cbn [fold_left]. apply IH.
        destruct G as (O & Q & N & A & B & C). repeat split; cbn -[upd2]; auto.
        + intros a b. destruct (upd2_cases (att s') n i Null a b) as [(_ & _ & ->)|[_ ->]]; auto.
        + intros X. apply in_app_or in X as [X|[X|[]]]; [auto|discriminate].
        + intros X. apply in_app_or in X as [X|[X|[]]]; [auto|discriminate].
      - destruct G1 as (O1 & Q1 & N1 & A1 & B1 & C1).
        unfold rebuild. destruct (stop_nodes (dkeys (topo s1)) s1) as [s2 b] eqn:E. 
        assert (Eb : b = true).
        { pose proof (stop_none_waits (dkeys (topo s1)) s1 N1) as K. rewrite E in K. exact K. }
        subst b. apply stop_frame in E as (_ & _ & _ & M & _ & _ & _ & O2).
        change (mkS t _ _ _ _ _ _ _ _) with (fresh_nodes t s2).
        assert (V : over (reset (mgr s2) (fresh_nodes t s2)) = None). { apply reset_over; [cbn; congruence|]. rewrite M. auto. }
        destruct (reset_frame (mgr s2) (fresh_nodes t s2)) as (A & _ & B & C & _). destruct (reset_mgr _ _ V) as [D F].
        split; [|exact A]. repeat split; auto; try (rewrite D; auto).
        + intros n. rewrite C. cbn. destruct (din n t); discriminate.
        + intros n i. rewrite B. auto.
      - destruct L.
      - auto. }
    destruct X as [G2 T2]. destruct (good_arrivals m2 _ G2) as [G3 T3]. set (s3 := arrivals m2 _) in *.
    unfold alive at 1 2. rewrite (proj1 G3), (check_same s3) by apply G3. split; [exact G3|]. rewrite T3, T2. destruct c; reflexivity.
Qed.
Lemma mon_safe t l : good w t l -> over (run w l (start t)) = None.
Proof.
  enough (X : forall l s, good w (topo s) l -> Good s -> Good (run w l s)).
  { intros G. apply (X l (start t)); [exact G|]. repeat split; cbn; auto. intros n. destruct (din n t); discriminate. }
  clear t l. induction l as [|e l IH]; intros s H G; [exact G|]. cbn. destruct H as [H1 H2]. destruct (good_step s e H1 G) as [G1 T1].
  apply IH; [|exact G1]. rewrite T1. destruct e as [|? c ?]; [exact H2|]. destruct c; exact H2.
Qed.
Definition Up (s : state) : Prop := forall n, din n (topo s) = true -> nodes s n = Running.
Lemma up_arrive s a b now p : sound (a, b, now, p) -> Good s -> Up s -> Up (arrive a b now p s).
Proof.
  intros (x & E) (O & Q & N & A & B & C) U. cbn in E. subst p. unfold arrive. rewrite O. destruct (nodes s a) eqn:L; auto.
  destruct (A a b) as [-> |[h ->]]; exact U.
Qed.
Lemma up_arrivals l s : Forall sound l -> Good s -> Up s -> Up (arrivals l s).
Proof.
  revert s. induction l as [|[[[a b] now] p] l IH]; intros s F G U; [exact U|]. inversion F as [|? ? F1 F2]; subst.
  apply (IH (arrive a b now p s)); [exact F2|now apply good_arrive|now apply up_arrive].
Qed.
Lemma up_step s e : all_sound e -> good_line w (topo s) e -> Good s -> Up s -> Up (step w s e).
Proof.
  intros F L G U. destruct e as [[[[a b] now] p]|m1 c m2].
  - now apply up_arrive.
  - cbn [step]. destruct F as [F1 F2]. pose proof (good_arrivals m1 s G) as [G1 T1]. pose proof (up_arrivals m1 s F1 G U) as U1.
    assert (L1 : good_line w (topo (arrivals m1 s)) (Line [] c [])) by (rewrite T1; exact L).
    pose proof (good_step (arrivals m1 s) (Line [] c []) L1 G1) as [G2 _]. cbn [step] in G2. unfold run_line in G2.
    rewrite (proj1 G1), (check_same _ (proj1 (proj2 G1))) in G2. change (arrivals [] ?x) with x in G2.
    rewrite (proj1 G). unfold run_line. rewrite (check_same s (proj1 (proj2 G))).
    set (s1 := arrivals m1 s) in *. unfold alive at 2 in G2. unfold alive at 2. rewrite (proj1 G1) in *.
    assert (U2 : Up (run_cmd w c s1)).
    { destruct c as [ws|ws|t| |]; cbn [run_cmd]; [| | |destruct L|exact U1].
      - unfold do_monitor. destruct (located _ ws) as [[l r]|]; [|exact U1]. destruct (how_of r) as [x|]; [|exact U1].
        destruct (fold_add_rest w x l s1) as (A & _ & B & _). unfold Up. rewrite A, B. exact U1.
      - unfold do_unmonitor. destruct (located _ ws) as [[l r]|]; [|exact U1].
        clear -U1. revert U1. generalize s1. induction l as [|[n i] l IH]; intros s' U; [exact U|]. cbn [fold_left]. apply IH. exact U.
      - unfold rebuild. destruct (stop_nodes (dkeys (topo s1)) s1) as [s2 b] eqn:E.
        pose proof (stop_none_waits (dkeys (topo s1)) s1 (proj1 (proj2 (proj2 G1)))) as K. rewrite E in K. cbn in K. subst b.
        change (mkS t _ _ _ _ _ _ _ _) with (fresh_nodes t s2). destruct (reset_frame (mgr s2) (fresh_nodes t s2)) as (A & _ & _ & B & _).
        intros n. rewrite A, B. cbn -[din]. intros ->. reflexivity. }
    assert (G3 : Good (run_cmd w c s1)).
    { change (arrivals [] s1) with s1 in G2. rewrite (proj1 G1) in G2. unfold alive in G2. destruct (over (run_cmd w c s1)) eqn:V; [exact G2|].
      destruct (check_cases (run_cmd w c s1)) as [[E _]|(q & a & _ & E)]; rewrite E in G2; [exact G2|]. destruct G2 as [X _]. discriminate X. }
    pose proof (up_arrivals m2 _ F2 G3 U2) as U3. pose proof (good_arrivals m2 _ G3) as [G4 _].
    unfold alive. rewrite (proj1 G4), (check_same _ (proj1 (proj2 G4))). exact U3.
Qed.
Lemma mon_pass t l n i now b : good w t l -> Forall all_sound l -> din n (topo (run w l (start t))) = true ->
  exists d, seen (step w (run w l (start t)) (Arrive (n, i, now, Ok b))) = seen (run w l (start t)) ++ d /\ got n i d = [(now, Ok b)].
Proof.
  intros H F D. enough (X : Good (run w l (start t)) /\ Up (run w l (start t))).
  { destruct X as [(O & _ & _ & A & _) U]. cbn [step arrive1]. unfold arrive. rewrite O, (U n D). destruct (A n i) as [-> |[h ->]].
    - eexists. split; [reflexivity|]. cbn. now rewrite !str_eqb_refl.
    - eexists. split; [cbn; rewrite <- app_assoc; reflexivity|]. cbn. now rewrite !str_eqb_refl. }
  clear D. assert (X : forall l s, good w (topo s) l -> Forall all_sound l -> Good s -> Up s -> Good (run w l s) /\ Up (run w l s)).
  { clear. induction l as [|e l IH]; intros s H F G U; [auto|]. cbn. destruct H as [H1 H2]. inversion F as [|? ? F1 F2]; subst.
    destruct (good_step s e H1 G) as [G1 T1]. apply IH; [|exact F2|exact G1|now apply up_step].
    rewrite T1. destruct e as [|? c ?]; [exact H2|]. destruct c; exact H2. }
  apply (X l (start t)); auto.
  - repeat split; cbn; auto. intros m. destruct (din m t); discriminate.
  - intros m. cbn -[din]. now intros ->.
Qed.
End Good.
