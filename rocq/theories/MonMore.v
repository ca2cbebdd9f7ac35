(** Proofs about monitors: installing, stopping, rebuilding, and what goes wrong. *)
From Coq Require Import List ZArith QArith Bool Lia String Ascii.
From Verif Require Import Dict DictLemmas CapModel MonModel MonSpec MonProofs.
Import ListNotations.
#[local] Open Scope list_scope.
#[local] Open Scope nat_scope.

Section Files.
Context (w : str -> bool).

Lemma enter_quiet c s : over s = None -> queue s = [] -> enter w c s = alive check (run_cmd w c s).
Proof.
  intros O Q. unfold enter, step, run_line, arrivals, check at 2. cbn [fold_left]. rewrite O, Q. unfold alive at 2. now rewrite O.
Qed.

(** ** Which interface a file belongs to *)
Definition Own (s : state) : Prop :=
  Inv s /\ forall h n i f a b, In (Opened h n i f) (seen s) -> h < nexth s /\ (att s a b = Pcap h -> a = n /\ b = i).
Definition any (o : obs) : Prop := True.
Lemma ext_any s s' : (exists d, seen s' = seen s ++ d) -> Ext any s s'.
Proof. intros [d E]. exists d. split; [exact E|]. apply Forall_forall. intros. exact I. Qed.
Lemma own_frame s s' : att s' = att s -> nexth s' = nexth s -> seen s' = seen s -> Inv s' -> Own s -> Own s'.
Proof. intros A N E I [_ O]. split; [exact I|]. rewrite A, N, E. exact O. Qed.
Lemma own_arrive s a b now p : Own s -> Own (arrive a b now p s) /\ Ext any s (arrive a b now p s).
Proof.
  intros O. pose proof (inv_arrive a b now p s (proj1 O)) as V.
  destruct (arrive_cases a b now p s) as [E|[(_ & E & _)|[(h' & x & _ & B & _ & E)|[(_ & E)|[(_ & _ & E)|(_ & _ & E)]]]]];
    rewrite E in *; (split; [|apply ext_any]); auto; try (revert O; apply own_frame; auto; reflexivity); try (exists []; now rewrite app_nil_r).
  - split; [exact V|]. cbn. intros h n i f a' b' H. apply in_app_or in H as [H|[H|[]]]; [|discriminate]. exact (proj2 O h n i f a' b' H).
  - eexists. reflexivity.
  - split; [exact V|]. cbn. intros h n i f a' b' H. rewrite <- app_assoc in H.
    apply in_app_or in H as [H|[H|[H|[]]]]; try discriminate. exact (proj2 O h n i f a' b' H).
  - eexists. cbn. rewrite <- app_assoc. reflexivity.
Qed.
Lemma own_check s : Own s -> Own (check s) /\ Ext any s (check s).
Proof.
  intros O. pose proof (inv_check s (proj1 O)) as V. destruct (check_cases s) as [[E _]|(q & a & _ & E)]; rewrite E in *;
    (split; [|apply ext_any; exists []; now rewrite app_nil_r]); auto. revert O; apply own_frame; auto; reflexivity.
Qed.
Lemma own_opened n i file s : Own s -> Own (opened n i file s).
Proof.
  intros O. split; [apply inv_opened, O|]. intros h n' i' f a b H. cbn [opened att nexth seen] in *.
  apply in_app_or in H as [H|[H|[]]].
  - destruct (proj2 O h n' i' f a b H) as [L K]. split; [lia|].
    destruct (upd2_cases (att s) n i (Pcap (nexth s)) a b) as [(-> & -> & ->)|[N ->]]; [|exact K]. intros [= X]. lia.
  - injection H as <- <- <- <-. split; [lia|].
    destruct (upd2_cases (att s) n i (Pcap (nexth s)) a b) as [(-> & -> & ->)|[N ->]]; [auto|].
    intros X. apply (i_lt s (proj1 O)) in X. lia.
Qed.
Lemma own_other n i m s s' : Inv s' -> (forall h, m <> Pcap h) -> att s' = upd2 (att s) n i m -> nexth s' = nexth s ->
  (exists d, seen s' = seen s ++ d /\ forall h n i f, ~ In (Opened h n i f) d) -> Own s -> Own s'.
Proof.
  intros V M A N (d & E & D) [_ O]. split; [exact V|]. intros h n' i' f a b H. rewrite E in H. apply in_app_or in H as [H|H]; [|now apply D in H].
  destruct (O h n' i' f a b H) as [L K]. rewrite N, A. split; [exact L|].
  destruct (upd2_cases (att s) n i m a b) as [(-> & -> & ->)|[_ ->]]; [|exact K]. intros X. now apply M in X.
Qed.
Lemma own_say o s : (forall h n i f, o <> Opened h n i f) -> Inv (say o s) -> Own s -> Own (say o s).
Proof.
  intros N V [_ O]. split; [exact V|]. intros h n i f a b H. cbn in H. apply in_app_or in H as [H|[H|[]]]; [|now apply N in H]. now apply (O h n i f a b).
Qed.
Lemma own_add_at x s p : Own s -> Own (add_at w x s p) /\ Ext any s (add_at w x s p).
Proof.
  intros O. split.
  2:{ apply ext_any. destruct (add_at_seen w x s p) as (d & E & _). now exists d. }
  pose proof (inv_add_at w x s p (proj1 O)) as V. destruct p as [n i].
  assert (G : forall o, (forall h a b f, o <> Opened h a b f) -> exists d, seen s ++ [o] = seen s ++ d /\ forall h n i f, ~ In (Opened h n i f) d).
  { intros o H. exists [o]. split; [reflexivity|]. intros h a b f [X|[]]. now apply H in X. }
  assert (G0 : exists d, seen s = seen s ++ d /\ forall h n i f, ~ In (Opened h n i f) d).
  { exists []. split; [now rewrite app_nil_r|]. auto. }
  destruct x as [base| |f|].
  - destruct (is_ascii (file_name n i base)) eqn:A; [destruct (w (file_name n i base)) eqn:W|].
    + unfold add_at in *. rewrite add_monitor_pcap in * by auto. apply own_opened. apply (own_frame s); try reflexivity; [apply inv_shown, O|exact O].
    + unfold add_at, add_monitor, construct in *. cbn [kind_of] in *. rewrite A, W in *. cbn [negb] in *.
      refine (own_other n i PcapNull s _ V _ _ _ _ O); [discriminate|reflexivity|reflexivity|exact G0].
    + unfold add_at, add_monitor, construct in *. cbn [kind_of] in *. rewrite A in *. cbn [negb] in *.
      split; [exact V|]. cbn. intros h n' i' f a b H. apply in_app_or in H as [H|[H|[]]]; [|discriminate]. exact (proj2 O h n' i' f a b H).
  - unfold add_at, add_monitor, construct in *. cbn [kind_of] in *.
    refine (own_other n i Debug s _ V _ _ _ _ O); [discriminate|reflexivity|reflexivity|exact G0].
  - unfold add_at, add_monitor, construct in *. cbn [kind_of] in *.
    split; [exact V|]. cbn. intros h n' i' f' a b H. apply in_app_or in H as [H|[H|[]]]; [|discriminate]. exact (proj2 O h n' i' f' a b H).
  - unfold add_at, add_monitor in *. cbn [kind_of] in *. apply own_say; auto. discriminate.
Qed.
Lemma own_remove n i s : Own s -> Own (remove_monitor n i s).
Proof.
  intros O. refine (own_other n i Null s _ (inv_remove n i s (proj1 O)) _ _ _ _ O); [discriminate|reflexivity|reflexivity|].
  exists []. split; [cbn; now rewrite app_nil_r|auto].
Qed.
Lemma own_cmd s c : over s = None -> Own s -> Own (run_cmd w c s) /\ Ext any s (run_cmd w c s).
Proof.
  intros V H. destruct c as [ws|ws|t| |]; cbn [run_cmd].
  - unfold do_monitor. destruct (located _ ws) as [[l r]|]; [|split; [exact H|now apply Ext_same]].
    destruct (how_of r); [|split; [exact H|now apply Ext_same]]. apply fold_all; auto. intros. now apply own_add_at.
  - unfold do_unmonitor. destruct (located _ ws) as [[l r]|]; [|split; [exact H|now apply Ext_same]].
    apply fold_all; auto. intros s' [n i] K. split; [|now apply Ext_same]. now apply own_remove.
  - pose proof (inv_rebuild t s V (proj1 H)) as VV. destruct (rebuild_cases t s) as (s' & _ & _ & A & _ & _ & N & S & _ & _ & [E|[_ E]]); rewrite E in *.
    + split; [|now apply Ext_same]. revert H. apply own_frame; auto.
    + assert (X : Ext (fun o => forall h n i f, o <> Opened h n i f) s (reset (mgr s) (fresh_nodes t s'))).
      { eapply Ext_trans; [|apply reset_ext; discriminate]. apply Ext_same. exact S. }
      split; [|apply ext_any; destruct X as (d & X & _); now exists d].
      destruct (reset_frame (mgr s) (fresh_nodes t s')) as (_ & _ & B & _ & M).
      split; [exact VV|]. intros h n i f a b K. rewrite B, M. split; [|discriminate].
      destruct X as (d & X & F). rewrite X in K. apply in_app_or in K as [K|K].
      * change (h < nexth s'). rewrite N. now destruct (proj2 H h n i f a b K).
      * rewrite Forall_forall in F. now destruct (F _ K h n i f).
  - pose proof (inv_leave s (proj1 H)) as VV. unfold leave in *.
    destruct (stop_nodes (dkeys (topo s)) s) as [s' b] eqn:E. apply stop_frame in E as (_ & _ & A & _ & _ & N & S & _).
    destruct b; (split; [|now apply Ext_same]); revert H; apply own_frame; auto.
  - split; [exact H|now apply Ext_same].
Qed.
Lemma own_reach s : reach w s -> Own s.
Proof.
  intros (t & l & ->). apply (all_run w Own any (fun _ => True)).
  - intros. now apply own_arrive.
  - intros. now apply own_check.
  - intros. now apply own_cmd.
  - apply all_ok. auto.
  - split; [apply inv_start|]. intros h n i f a b [].
Qed.

(** ** Installing *)
Lemma fold_add_pcap base l n i s : In (n, i) l -> is_ascii (file_name n i base) = true -> w (file_name n i base) = true ->
  let s' := fold_left (add_at w (HPcap base)) l s in
  exists h d, seen s' = seen s ++ d /\ In (Opened h n i (file_name n i base)) d /\ att s' n i = Pcap h /\ shown s' n i = Some KPcap.
Proof.
  intros H A W. induction l as [|p l IH] using rev_ind; [destruct H|]. rewrite fold_left_app. cbn [fold_left]. cbv zeta.
  set (s1 := fold_left (add_at w (HPcap base)) l s) in *.
  assert (X : exists d, seen s1 = seen s ++ d).
  { clear. revert s1. induction l as [|p l IH] using rev_ind; cbn; [exists []; now rewrite app_nil_r|].
    rewrite fold_left_app. cbn [fold_left]. destruct IH as [d E]. destruct (add_at_seen w (HPcap base) (fold_left (add_at w (HPcap base)) l s) p) as (d' & E' & _).
    exists (d ++ d'). now rewrite E', E, app_assoc. }
  destruct X as [d0 E0].
  assert (D : p = (n, i) \/ p <> (n, i)).
  { destruct p as [a b]. destruct (String.string_dec a n) as [->|], (String.string_dec b i) as [->|]; auto; right; congruence. }
  destruct D as [->|D].
  - exists (nexth s1), (d0 ++ [Opened (nexth s1) n i (file_name n i base)]). unfold add_at. rewrite add_monitor_pcap by auto. cbn -[upd2].
    rewrite E0, app_assoc. repeat split; [apply in_or_app; right; now left|apply upd2_same|apply upd2_same].
  - apply in_app_or in H as [H|[H|[]]]; [|congruence]. destruct (IH H) as (h & d & E & O & B & K).
    destruct (add_at_seen w (HPcap base) s1 p) as (d' & E' & _). destruct (add_at_frame w (HPcap base) s1 p n i) as [F G]; [congruence|].
    exists h, (d ++ d'). rewrite E', E, app_assoc. repeat split; [apply in_or_app; now left|congruence|congruence].
Qed.
Lemma fold_add_rest x l s : let s' := fold_left (add_at w x) l s in topo s' = topo s /\ queue s' = queue s /\ nodes s' = nodes s /\ over s' = over s.
Proof.
  cbv zeta. revert s. induction l as [|p l IH]; intros s; [auto|]. cbn [fold_left]. destruct (IH (add_at w x s p)) as (A & B & C & D).
  destruct (add_at_rest w x s p) as (A' & B' & C' & D'). repeat split; congruence.
Qed.
Lemma check_same s : queue s = [] -> check s = s.
Proof. unfold check. now intros ->. Qed.
Lemma enter_monitor s ws l r x : over s = None -> queue s = [] -> located (topo s) ws = Some (l, r) -> how_of r = Some x ->
  enter w (Monitor ws) s = fold_left (add_at w x) l s.
Proof.
  intros O Q L H. rewrite enter_quiet by auto. cbn [run_cmd]. unfold do_monitor. rewrite L, H.
  destruct (fold_add_rest x l s) as (_ & B & _ & D). unfold alive. rewrite D, O. apply check_same. congruence.
Qed.
Lemma mon_capture s ws l r base n i : reach w s -> over s = None -> queue s = [] ->
  located (topo s) ws = Some (l, r) -> how_of r = Some (HPcap base) -> In (n, i) l ->
  is_ascii (file_name n i base) = true -> w (file_name n i base) = true ->
  let s' := enter w (Monitor ws) s in
  exists h d, seen s' = seen s ++ d /\ In (Opened h n i (file_name n i base)) d /\ shown s' n i = Some KPcap /\
  forall evs, Forall (leaves_alone (topo s) n i) evs ->
  exists d', seen (run w evs s') = seen s' ++ d' /\ Forall2 holds (written h d') (got n i d').
Proof.
  intros R O Q L H In A W. cbv zeta. pose proof (enter_monitor s ws l r _ O Q L H) as E.
  destruct (fold_add_pcap base l n i s In A W) as (h & d & Es & Eo & Ea & Ek). rewrite <- E in *. exists h, d. do 3 (split; [assumption|]).
  assert (T : topo (enter w (Monitor ws) s) = topo s) by (rewrite E; apply fold_add_rest).
  intros evs F. apply mon_records; auto; [|now rewrite T].
  destruct R as (t & l0 & ->). exists t, (l0 ++ [Line [] (Monitor ws) []]). unfold run. rewrite fold_left_app. reflexivity.
Qed.

(** ** Stopping *)
Definition pair_dec : forall x y : str * str, {x = y} + {x <> y}.
Proof. decide equality; apply String.string_dec. Defined.
Lemma fold_remove l s a b : let s' := fold_left (fun s '(n, i) => remove_monitor n i s) l s in
  topo s' = topo s /\ queue s' = queue s /\ nodes s' = nodes s /\ over s' = over s /\ nexth s' = nexth s /\ seen s' = seen s /\
  (In (a, b) l -> att s' a b = Null /\ shown s' a b = None) /\ (~ In (a, b) l -> att s' a b = att s a b /\ shown s' a b = shown s a b) /\
  forall h, (forall n i, att s n i <> Pcap h) -> forall n i, att s' n i <> Pcap h.
Proof.
  cbv zeta. revert s. induction l as [|[n i] l IH]; intros s; [repeat split; auto; contradiction|].
  cbn [fold_left]. destruct (IH (remove_monitor n i s)) as (A & B & C & D & E & F & G & H & K).
  assert (X : In (a, b) l \/ ~ In (a, b) l).
  { destruct (in_dec pair_dec (a, b) l); auto. }
  do 6 (split; [assumption|]). split; [|split].
  - intros [J|J]; [|now apply G]. injection J as -> ->. destruct X as [X|X]; [now apply G|].
    destruct (H X) as [-> ->]. cbn. now rewrite !upd2_same.
  - intros N. assert (N' : ~ In (a, b) l) by (intros Y; apply N; now right). destruct (H N') as [-> ->]. cbn.
    rewrite !upd2_other by (intros Y; apply N; left; congruence). auto.
  - intros h Hh n' i'. apply K. intros n'' i''. cbn. destruct (upd2_cases (att s) n i Null n'' i'') as [(_ & _ & ->)|[_ ->]]; [discriminate|apply Hh].
Qed.
Lemma mon_stop s ws n i : reach w s -> over s = None -> queue s = [] -> names (topo s) ws n i ->
  let s' := enter w (Unmonitor ws) s in
  shown s' n i = None /\ seen s' = seen s /\
  forall h f, In (Opened h n i f) (seen s) -> forall evs d, seen (run w evs s') = seen s' ++ d -> written h d = [].
Proof.
  intros R O Q (l & r & L & Hin). cbv zeta. rewrite enter_quiet by auto. cbn [run_cmd]. unfold do_unmonitor. rewrite L.
  destruct (fold_remove l s n i) as (T & B & C & D & E & S & G & _ & _). set (s' := fold_left _ l s) in *.
  unfold alive. rewrite D, O, check_same by congruence. destruct (G Hin) as [G1 G2]. do 2 (split; [assumption|]).
  intros h f X evs d. apply off_none. split; [rewrite E; now apply (proj2 (own_reach s R) h n i f n i)|].
  intros a b. destruct (own_reach s R) as [_ W]. destruct (W h n i f a b X) as [_ Y].
  assert (D2 : (a, b) = (n, i) \/ (a, b) <> (n, i)).
  { destruct (String.string_dec a n) as [->|], (String.string_dec b i) as [->|]; auto; right; congruence. }
  destruct D2 as [D2|D2]; [injection D2 as -> ->; rewrite G1; discriminate|].
  intros Z. destruct (fold_remove l s a b) as (_ & _ & _ & _ & _ & _ & H1 & H2 & _). fold s' in H1, H2.
  destruct (in_dec pair_dec (a, b) l) as [I|I].
  - destruct (H1 I). congruence.
  - destruct (H2 I) as [H3 _]. rewrite H3 in Z. destruct (Y Z). congruence.
Qed.

(** ** Files are opened, written and closed once *)
Lemma mon_once s h : reach w s -> ops h (seen s) = [] \/ still_open (ops h (seen s)) \/ closed_once (ops h (seen s)).
Proof.
  intros R. apply inv_reach in R. destruct (le_lt_dec (nexth s) h) as [L|L]; [left; now apply (i_new s R)|right; now apply (i_reg s R)].
Qed.
Lemma closed_more l d : closed_once l -> still_open (l ++ d) \/ closed_once (l ++ d) -> d = [].
Proof.
  intros [k ->] H. change (OOpen :: repeat OWrite k ++ [OClose]) with ([OOpen] ++ (repeat OWrite k ++ [OClose])) in H.
  rewrite <- !app_assoc in H. cbn in H. destruct H as [[j E]|[j E]]; injection E as E.
  - assert (X : In OClose (repeat OWrite j)) by (rewrite <- E; apply in_or_app; right; now left). apply repeat_spec in X. discriminate.
  - revert j E. induction k as [|k IH]; intros j E; destruct j as [|j]; cbn in E; try discriminate.
    + injection E as E. exact E.
    + injection E as E. now apply IH in E.
Qed.
Lemma reach_run s l : reach w s -> reach w (run w l s).
Proof. intros (t & l0 & ->). exists t, (l0 ++ l). unfold run. now rewrite fold_left_app. Qed.
Lemma reach_enter s c : reach w s -> reach w (enter w c s).
Proof. intros R. exact (reach_run s [Line [] c []] R). Qed.
Lemma closed_forever s h evs d : reach w s -> closed_once (ops h (seen s)) -> seen (run w evs s) = seen s ++ d -> ops h d = [].
Proof.
  intros R C E. apply (closed_more (ops h (seen s))); [exact C|]. rewrite <- ops_app, <- E.
  destruct (mon_once _ h (reach_run s evs R)) as [X|X]; [|exact X].
  rewrite E, ops_app in X. destruct C as [k C]. rewrite C in X. discriminate.
Qed.

(** ** Rebuilding *)
Lemma mon_rebuild s t : reach w s -> over (enter w (Rebuild t) s) = None ->
  let s' := enter w (Rebuild t) s in
  (forall n i, shown s' n i = None) /\
  forall h n i f, In (Opened h n i f) (seen s) -> closed_once (ops h (seen s')) /\
  forall evs d, seen (run w evs s') = seen s' ++ d -> ops h d = [].
Proof.
  intros R V. cbv zeta. assert (O : over s = None). { unfold enter, step in V. destruct (over s) eqn:O; [congruence|reflexivity]. }
  assert (Q : queue s = []).
  { unfold enter, step, run_line, arrivals in V. rewrite O in V. cbn [fold_left] in V. unfold check at 2 in V. destruct (queue s); [reflexivity|].
    unfold alive in V. cbn in V. discriminate. }
  pose proof (inv_reach w _ (reach_enter s (Rebuild t) R)) as J. pose proof (reach_enter s (Rebuild t) R) as R'.
  rewrite enter_quiet in * by auto. cbn [run_cmd] in *. set (s1 := rebuild t s) in *.
  assert (V1 : over s1 = None). { unfold alive in V. destruct (over s1) eqn:E; [congruence|reflexivity]. }
  destruct (rebuild_cases t s) as (s2 & T & Sh & A & M & Qu & N & Se & Ov & _ & [E|[_ E]]).
  { fold s1 in E. rewrite E in V1. discriminate. }
  fold s1 in E. assert (Z : mgr s1 = [] /\ queue s1 = []) by (rewrite E in *; now apply reset_mgr).
  assert (Al : alive check s1 = s1) by (unfold alive; rewrite V1; apply check_same, Z). rewrite Al in *.
  destruct (reset_frame (mgr s) (fresh_nodes t s2)) as (_ & B & _ & _ & Nn). rewrite <- E in B, Nn.
  split; [intros; rewrite B; reflexivity|]. intros h n i f H.
  assert (C : closed_once (ops h (seen s1))).
  { destruct (own_reach s R) as [_ W]. destruct (W h n i f n i H) as [L _].
    assert (L1 : h < nexth s1) by (rewrite Nn; cbn; lia).
    pose proof (i_mgr s1 J V1 h L1) as K. destruct Z as [Z _]. rewrite Z in K. exact K. }
  split; [exact C|]. intros evs d. now apply closed_forever.
Qed.
End Files.
