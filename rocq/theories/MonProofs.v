(** Proofs about monitors. *)
From Coq Require Import List ZArith QArith Bool Lia String Ascii.
From Verif Require Import Dict DictLemmas CapModel MonModel MonSpec.
Import ListNotations.
#[local] Open Scope list_scope.
#[local] Open Scope nat_scope.

(** ** What is seen only grows *)
Definition ext (s s' : state) : Prop := exists d, seen s' = seen s ++ d.
Lemma ext_refl s : ext s s.
Proof. exists []. now rewrite app_nil_r. Qed.
Lemma ext_trans a b c : ext a b -> ext b c -> ext a c.
Proof. intros [d E] [d' E']. exists (d ++ d'). now rewrite E', E, app_assoc. Qed.

Lemma written_app h a b : written h (a ++ b) = written h a ++ written h b.
Proof. apply flat_map_app. Qed.
Lemma got_app n i a b : got n i (a ++ b) = got n i a ++ got n i b.
Proof. apply flat_map_app. Qed.
Lemma ops_app h a b : ops h (a ++ b) = ops h a ++ ops h b.
Proof. apply flat_map_app. Qed.

Definition pcaps (l : list mon) : list nat := flat_map (fun m => match m with Pcap h => [h] | _ => [] end) l.
Lemma pcaps_app a b : pcaps (a ++ b) = pcaps a ++ pcaps b.
Proof. apply flat_map_app. Qed.

Record Inv (s : state) : Prop := mkInv {
  i_lt : forall n i h, att s n i = Pcap h -> h < nexth s;
  i_one : forall n i n' i' h, att s n i = Pcap h -> att s n' i' = Pcap h -> n = n' /\ i = i';
  i_mlt : forall h, In h (pcaps (mgr s)) -> h < nexth s;
  i_nd : NoDup (pcaps (mgr s));
  i_att : forall n i h, att s n i = Pcap h -> still_open (ops h (seen s)) /\ In h (pcaps (mgr s));
  i_mgr : over s = None -> forall h, h < nexth s ->
          if in_dec Nat.eq_dec h (pcaps (mgr s)) then still_open (ops h (seen s)) else closed_once (ops h (seen s));
  i_reg : forall h, h < nexth s -> still_open (ops h (seen s)) \/ closed_once (ops h (seen s));
  i_new : forall h, nexth s <= h -> ops h (seen s) = [];
}.

Lemma inv_frame s s' : att s' = att s -> nexth s' = nexth s -> mgr s' = mgr s -> seen s' = seen s ->
  (over s' = None -> over s = None) -> Inv s -> Inv s'.
Proof.
  intros Ea En Em Es Eo []. constructor; rewrite ?Ea, ?En, ?Em, ?Es; auto. intros E. exact (i_mgr0 (Eo E)).
Qed.

Lemma upd2_spec {A} (f : str -> str -> A) n i x a b :
  upd2 f n i x a b = if str_eqb a n && str_eqb b i then x else f a b.
Proof. reflexivity. Qed.
Lemma upd2_same {A} (f : str -> str -> A) n i x : upd2 f n i x n i = x.
Proof. unfold upd2. now rewrite !str_eqb_refl. Qed.
Lemma upd2_other {A} (f : str -> str -> A) n i x a b : (a, b) <> (n, i) -> upd2 f n i x a b = f a b.
Proof.
  intros H. unfold upd2. destruct (str_spec a n), (str_spec b i); cbn; congruence.
Qed.
Lemma upd2_cases {A} (f : str -> str -> A) n i x a b :
  (a = n /\ b = i /\ upd2 f n i x a b = x) \/ ((a, b) <> (n, i) /\ upd2 f n i x a b = f a b).
Proof.
  unfold upd2. destruct (str_spec a n) as [->|], (str_spec b i) as [->|]; cbn; [left; auto|right|right|right]; split; congruence.
Qed.

Lemma so_write l : still_open l -> still_open (l ++ [OWrite]).
Proof. intros [k ->]. exists (S k). cbn [app]. f_equal. rewrite <- repeat_cons. reflexivity. Qed.
Lemma so_close l : still_open l -> closed_once (l ++ [OClose]).
Proof. intros [k ->]. now exists k. Qed.
Lemma so_not_closed l : still_open l -> closed_once l -> False.
Proof.
  intros [k ->] [j E]. injection E as E.
  assert (H : In OClose (repeat OWrite k)) by (rewrite E; apply in_or_app; right; left; reflexivity).
  apply repeat_spec in H. discriminate.
Qed.

(** ** A packet arrives *)
Lemma ops_say h o s : ops h (seen (say o s)) = ops h (seen s) ++ ops h [o].
Proof. apply ops_app. Qed.
Lemma ops1_written h h' r : ops h [Written h' r] = if Nat.eqb h' h then [OWrite] else [].
Proof. cbn. destruct (Nat.eqb h' h); reflexivity. Qed.
Lemma ops1_closed h h' : ops h [Closed h'] = if Nat.eqb h' h then [OClose] else [].
Proof. cbn. destruct (Nat.eqb h' h); reflexivity. Qed.
Lemma ops1_opened h h' n i f : ops h [Opened h' n i f] = if Nat.eqb h' h then [OOpen] else [].
Proof. cbn. destruct (Nat.eqb h' h); reflexivity. Qed.

Lemma inv_say_quiet o s : (forall h, ops h [o] = []) -> Inv s -> Inv (say o s).
Proof.
  intros Q []. constructor; cbn [say att nexth mgr over]; auto; intros; rewrite ?ops_say, ?Q, ?app_nil_r; auto.
  - now apply i_att0 with n i.
  - now apply i_mgr0.
Qed.
Lemma inv_say_write n i h r s : att s n i = Pcap h -> Inv s -> Inv (say (Written h r) s).
Proof.
  intros A []. destruct (i_att0 _ _ _ A) as [O M].
  constructor; cbn [say att nexth mgr over]; auto.
  - intros a b h' E. rewrite ops_say, ops1_written. destruct (Nat.eqb_spec h h') as [<-|N].
    + split; [now apply so_write|auto].
    + rewrite app_nil_r. eauto.
  - intros Eo h' L. specialize (i_mgr0 Eo h' L).
    destruct (in_dec Nat.eq_dec h' (pcaps (mgr s))) as [I|I]; rewrite ops_say, ops1_written; destruct (Nat.eqb_spec h h') as [<-|N];
      rewrite ?app_nil_r; auto; [now apply so_write|contradiction].
  - intros h' L. rewrite ops_say, ops1_written. destruct (Nat.eqb_spec h h') as [<-|N]; rewrite ?app_nil_r; auto.
    left. now apply so_write.
  - intros h' L. rewrite ops_say, ops1_written. destruct (Nat.eqb_spec h h') as [<-|N]; rewrite ?app_nil_r; auto.
    specialize (i_lt0 _ _ _ A). lia.
Qed.
Lemma inv_arrive n i now p s : Inv s -> Inv (arrive n i now p s).
Proof.
  intros I. unfold arrive.
  assert (J : Inv match nodes s n with
     | Running => match att s n i with
       | Pcap h => match p with Ok b => say (Got n i now p) (say (Written h (dump_record now b)) s) | Err _ => set_life n Ended s end
       | PcapNull => match p with Ok _ => finish Segv s | Err _ => set_life n Ended s end
       | Debug => set_life n Waiting (mkS (topo s) (shown s) (att s) (mgr s) (queue s ++ [n]) (nodes s) (nexth s) (seen s) (over s))
       | _ => say (Got n i now p) s end
     | _ => s end).
  { destruct (nodes s n); auto. destruct (att s n i) as [|h| | |] eqn:A.
    - apply inv_say_quiet; auto.
    - destruct p as [b|e].
      + apply inv_say_quiet; [reflexivity|]. now apply inv_say_write with n i.
      + revert I; apply inv_frame; reflexivity || auto.
    - destruct p; revert I; apply inv_frame; try reflexivity; cbn; congruence.
    - revert I; apply inv_frame; reflexivity || auto.
    - apply inv_say_quiet; auto. }
  destruct (over s) as [[]|]; auto.
Qed.

Lemma inv_arrivals l s : Inv s -> Inv (arrivals l s).
Proof.
  revert s. induction l as [|[[[n i] now] p] l IH]; intros s I; [exact I|]. apply IH. now apply inv_arrive.
Qed.

(** ** Monitors come and go *)
Lemma inv_add_other m s : pcaps [m] = [] -> Inv s -> Inv (add_mgr m s).
Proof.
  intros P []. constructor; cbn [add_mgr att nexth mgr over seen]; rewrite ?pcaps_app, ?P, ?app_nil_r; auto.
Qed.
Lemma inv_set_other n i m s : (forall h, m <> Pcap h) -> Inv s -> Inv (set_att n i m s).
Proof.
  intros P []. constructor; cbn [set_att att nexth mgr over seen]; auto.
  - intros a b h. destruct (upd2_cases (att s) n i m a b) as [(-> & -> & ->)|[N ->]]; eauto. intros ->. now destruct (P h).
  - intros a b a' b' h. destruct (upd2_cases (att s) n i m a b) as [(-> & -> & ->)|[N ->]]; [intros ->; now destruct (P h)|].
    destruct (upd2_cases (att s) n i m a' b') as [(-> & -> & ->)|[N' ->]]; [intros _ ->; now destruct (P h)|]. eauto.
  - intros a b h. destruct (upd2_cases (att s) n i m a b) as [(-> & -> & ->)|[N ->]]; eauto. intros ->. now destruct (P h).
Qed.
Lemma inv_remove n i s : Inv s -> Inv (remove_monitor n i s).
Proof.
  intros I. apply inv_set_other; [discriminate|]. apply inv_add_other; [reflexivity|]. revert I; apply inv_frame; reflexivity || auto.
Qed.

Definition opened (n i file : str) (s : state) : state :=
  mkS (topo s) (shown s) (upd2 (att s) n i (Pcap (nexth s))) (mgr s ++ [Pcap (nexth s)]) (queue s) (nodes s) (S (nexth s))
      (seen s ++ [Opened (nexth s) n i file]) (over s).
Lemma inv_opened n i file s : Inv s -> Inv (opened n i file s).
Proof.
  intros [].
  assert (F : forall h l, h < nexth s -> ops h (l ++ [Opened (nexth s) n i file]) = ops h l).
  { intros h l L. rewrite ops_app, ops1_opened. destruct (Nat.eqb_spec (nexth s) h); [lia|]. apply app_nil_r. }
  assert (G : ops (nexth s) (seen s ++ [Opened (nexth s) n i file]) = [OOpen]).
  { rewrite ops_app, ops1_opened, Nat.eqb_refl, i_new0 by lia. reflexivity. }
  assert (O : still_open [OOpen]) by now exists 0.
  constructor; cbn [opened att nexth mgr over seen].
  - intros a b h. destruct (upd2_cases (att s) n i (Pcap (nexth s)) a b) as [(-> & -> & ->)|[N ->]].
    + intros [= <-]. lia.
    + intros E. specialize (i_lt0 _ _ _ E). lia.
  - intros a b a' b' h.
    destruct (upd2_cases (att s) n i (Pcap (nexth s)) a b) as [(-> & -> & ->)|[N ->]],
             (upd2_cases (att s) n i (Pcap (nexth s)) a' b') as [(-> & -> & ->)|[N' ->]]; auto.
    + intros [= <-] E. specialize (i_lt0 _ _ _ E). lia.
    + intros E [= <-]. specialize (i_lt0 _ _ _ E). lia.
    + eauto.
  - intros h. rewrite pcaps_app, in_app_iff. intros [E|[<-|[]]]; [specialize (i_mlt0 _ E); lia|lia].
  - rewrite pcaps_app. apply (NoDup_Add (Add_app (nexth s) (pcaps (mgr s)) [])).
    rewrite app_nil_r. split; auto. intros E. specialize (i_mlt0 _ E). lia.
  - intros a b h. rewrite pcaps_app, in_app_iff.
    destruct (upd2_cases (att s) n i (Pcap (nexth s)) a b) as [(-> & -> & ->)|[N ->]].
    + intros [= <-]. rewrite G. split; auto. right. now left.
    + intros E. destruct (i_att0 _ _ _ E) as [O' M]. rewrite F by eauto. auto.
  - intros Eo h L. rewrite pcaps_app. destruct (Nat.eq_dec h (nexth s)) as [->|N].
    + rewrite G. destruct (in_dec _ _ _) as [_|X]; [auto|]. destruct X. apply in_or_app. right. now left.
    + assert (L' : h < nexth s) by lia. rewrite F by auto. specialize (i_mgr0 Eo h L').
      destruct (in_dec Nat.eq_dec h (pcaps (mgr s))) as [X|X], (in_dec Nat.eq_dec h (pcaps (mgr s) ++ pcaps [Pcap (nexth s)])) as [Y|Y]; auto.
      * destruct Y. apply in_or_app; auto.
      * apply in_app_or in Y. destruct Y as [Y|[Y|[]]]; [contradiction|congruence].
  - intros h L. destruct (Nat.eq_dec h (nexth s)) as [->|N]; [rewrite G; auto|]. rewrite F by lia. apply i_reg0. lia.
  - intros h L. rewrite ops_app, ops1_opened. destruct (Nat.eqb_spec (nexth s) h); [lia|]. rewrite app_nil_r. apply i_new0. lia.
Qed.

Section Files.
Context (w : str -> bool).

Lemma add_monitor_pcap base n i s : is_ascii (file_name n i base) = true -> w (file_name n i base) = true ->
  add_monitor w (HPcap base) n i s = (opened n i (file_name n i base) (set_shown n i (Some KPcap) s), None).
Proof. intros A W. unfold add_monitor, construct. cbn [kind_of]. now rewrite A, W. Qed.
Lemma inv_shown n i k s : Inv s -> Inv (set_shown n i k s).
Proof. apply inv_frame; reflexivity || auto. Qed.
Lemma inv_add h n i s : Inv s -> Inv (fst (add_monitor w h n i s)).
Proof.
  intros I. destruct h as [base| |f|].
  - destruct (is_ascii (file_name n i base)) eqn:A.
    + destruct (w (file_name n i base)) eqn:W.
      * rewrite add_monitor_pcap by auto. now apply inv_opened, inv_shown.
      * unfold add_monitor, construct. cbn [kind_of]. rewrite A, W. cbn [negb fst].
        apply inv_set_other; [discriminate|]. apply inv_add_other; [reflexivity|]. now apply inv_shown.
    + unfold add_monitor, construct. cbn [kind_of]. rewrite A. cbn [negb fst].
      apply inv_add_other; [reflexivity|]. now apply inv_shown.
  - unfold add_monitor, construct. cbn [kind_of fst].
    apply inv_set_other; [discriminate|]. apply inv_add_other; [reflexivity|]. now apply inv_shown.
  - unfold add_monitor, construct. cbn [kind_of fst]. apply inv_add_other; [reflexivity|]. now apply inv_shown.
  - exact I.
Qed.
Lemma inv_add_at h s p : Inv s -> Inv (add_at w h s p).
Proof.
  destruct p as [n i]. intros I. unfold add_at. pose proof (inv_add h n i s I) as J.
  destruct (add_monitor w h n i s) as [s' [e|]]; cbn [fst] in J; auto. now apply inv_say_quiet.
Qed.
Lemma inv_fold {A} (f : state -> A -> state) l s : (forall s x, Inv s -> Inv (f s x)) -> Inv s -> Inv (fold_left f l s).
Proof. intros F. revert s. induction l as [|x l IH]; intros s I; [exact I|]. apply IH, F, I. Qed.
Lemma inv_monitor ws s : Inv s -> Inv (do_monitor w ws s).
Proof.
  intros I. unfold do_monitor. destruct (located _ ws) as [[l r]|]; [|exact I]. destruct (how_of r); [|exact I].
  apply inv_fold; [intros; now apply inv_add_at|exact I].
Qed.
Lemma inv_unmonitor ws s : Inv s -> Inv (do_unmonitor ws s).
Proof.
  intros I. unfold do_unmonitor. destruct (located _ ws) as [[l r]|]; [|exact I].
  apply inv_fold; [intros s' [n i]; now apply inv_remove|exact I].
Qed.

(** ** Stopping *)
Lemma stop_frame ns s s' b : stop_nodes ns s = (s', b) ->
  topo s' = topo s /\ shown s' = shown s /\ att s' = att s /\ mgr s' = mgr s /\ queue s' = queue s /\ nexth s' = nexth s /\ seen s' = seen s /\ over s' = over s.
Proof.
  revert s. induction ns as [|n ns IH]; cbn [stop_nodes]; intros s E.
  - now injection E as <- <-.
  - destruct (nodes s n); try (apply IH in E; exact E). now injection E as <- <-.
Qed.
Lemma inv_stop ns s : Inv s -> Inv (fst (stop_nodes ns s)).
Proof.
  destruct (stop_nodes ns s) as [s' b] eqn:E. apply stop_frame in E as (_ & _ & A & M & _ & N & S & O).
  apply inv_frame; auto; cbn; congruence.
Qed.

(** The reset closes what is on the list. *)
Lemma ops_reset_other h l s : ~ In h (pcaps l) -> ops h (seen (reset l s)) = ops h (seen s).
Proof.
  revert s. induction l as [|[|h'| | |] l IH]; intros s N; cbn [reset]; auto.
  rewrite IH by (intros X; apply N; right; exact X). rewrite ops_say, ops1_closed.
  destruct (Nat.eqb_spec h' h) as [->|]; [destruct N; now left|]. apply app_nil_r.
Qed.
Lemma reset_frame l s : topo (reset l s) = topo s /\ shown (reset l s) = shown s /\ att (reset l s) = att s /\ nodes (reset l s) = nodes s /\ nexth (reset l s) = nexth s.
Proof. revert s. induction l as [|[] l IH]; intros s; cbn [reset]; auto. destruct (IH (say (Closed h) s)) as (A & B & C & D & E). auto. Qed.
Lemma reset_mgr l s : over (reset l s) = None -> mgr (reset l s) = [] /\ queue (reset l s) = [].
Proof. revert s. induction l as [|[] l IH]; intros s; cbn [reset]; auto; discriminate. Qed.
Lemma reset_over l s : over s = None -> (over (reset l s) = None <-> ~ In PcapNull l /\ ~ In Broken l).
Proof.
  revert s. induction l as [|[] l IH]; intros s O; cbn [reset].
  - cbn. split; auto.
  - rewrite IH by auto. split; intros [A B]; (split; [intros H; apply A|intros H; apply B]); try (now right); destruct H; congruence || auto.
  - rewrite IH by auto. split; intros [A B]; (split; [intros H; apply A|intros H; apply B]); try (now right); destruct H; congruence || auto.
  - split; [discriminate|]. intros [A _]. destruct A. now left.
  - rewrite IH by auto. split; intros [A B]; (split; [intros H; apply A|intros H; apply B]); try (now right); destruct H; congruence || auto.
  - split; [discriminate|]. intros [_ A]. destruct A. now left.
Qed.
Lemma ops_reset_reg h l s : NoDup (pcaps l) -> still_open (ops h (seen s)) ->
  still_open (ops h (seen (reset l s))) \/ closed_once (ops h (seen (reset l s))).
Proof.
  revert s. induction l as [|[|h'| | |] l IH]; intros s N O; cbn [reset]; auto.
  inversion N as [|? ? N1 N2]; subst. destruct (Nat.eqb_spec h' h) as [->|E].
  - rewrite ops_reset_other by exact N1. rewrite ops_say, ops1_closed, Nat.eqb_refl. right. now apply so_close.
  - apply IH; auto. rewrite ops_say, ops1_closed. destruct (Nat.eqb_spec h' h); [contradiction|]. now rewrite app_nil_r.
Qed.
Lemma ops_reset_closed h l s : NoDup (pcaps l) -> In h (pcaps l) -> still_open (ops h (seen s)) -> over s = None -> over (reset l s) = None ->
  closed_once (ops h (seen (reset l s))).
Proof.
  revert s. induction l as [|[|h'| | |] l IH]; intros s N I O V W; cbn [reset] in *; auto; try discriminate; [destruct I|].
  inversion N as [|? ? N1 N2]; subst. destruct I as [I|I].
  - subst h'. rewrite ops_reset_other by exact N1. rewrite ops_say, ops1_closed, Nat.eqb_refl. now apply so_close.
  - apply IH; auto. rewrite ops_say, ops1_closed. destruct (Nat.eqb_spec h' h) as [->|]; [contradiction|]. now rewrite app_nil_r.
Qed.

Definition fresh_nodes (t : dict (list str)) (s : state) : state :=
  mkS t (fun _ _ => None) (fun _ _ => Null) (mgr s) (queue s) (fun n => if din n t then Running else Ended) (nexth s) (seen s) (over s).
Lemma inv_reset t s : over s = None -> Inv s -> Inv (reset (mgr s) (fresh_nodes t s)).
Proof.
  intros O I. set (s1 := fresh_nodes t s). destruct (reset_frame (mgr s) s1) as (_ & _ & A & _ & N).
  assert (G : forall l s', mgr s' = mgr s -> mgr (reset l s') = mgr s \/ mgr (reset l s') = []).
  { induction l as [|[] l IH]; intros s' E; cbn [reset]; try (apply IH; exact E); cbn; auto. }
  constructor; rewrite ?A, ?N; cbn [s1 fresh_nodes att nexth]; try discriminate.
  - intros h H. destruct (G (mgr s) s1 eq_refl) as [E|E]; rewrite E in H; [now apply (i_mlt s I)|destruct H].
  - destruct (G (mgr s) s1 eq_refl) as [-> | ->]; [apply (i_nd s I)|constructor].
  - intros V h L. destruct (reset_mgr _ _ V) as [M _]. rewrite M. destruct (in_dec _ _ _) as [[]|_].
    pose proof (i_mgr s I O h L) as K. destruct (in_dec Nat.eq_dec h (pcaps (mgr s))) as [X|X].
    + apply ops_reset_closed; auto. apply (i_nd s I).
    + rewrite ops_reset_other by exact X. exact K.
  - intros h L. pose proof (i_mgr s I O h L) as K. destruct (in_dec Nat.eq_dec h (pcaps (mgr s))) as [X|X].
    + apply ops_reset_reg; [apply (i_nd s I)|exact K].
    + right. rewrite ops_reset_other by exact X. exact K.
  - intros h L. rewrite ops_reset_other; [now apply (i_new s I)|]. intros X. apply (i_mlt s I) in X. lia.
Qed.

Lemma inv_finish f s : Inv s -> Inv (finish f s).
Proof. apply inv_frame; reflexivity || discriminate. Qed.
Lemma inv_rebuild t s : over s = None -> Inv s -> Inv (rebuild t s).
Proof.
  intros O I. unfold rebuild. pose proof (inv_stop (dkeys (topo s)) s I) as J.
  destruct (stop_nodes (dkeys (topo s)) s) as [s' b] eqn:E. cbn [fst] in J. apply stop_frame in E as (_ & _ & _ & _ & _ & _ & _ & O').
  destruct b; [|now apply inv_finish]. apply (inv_reset t s'); [congruence|exact J].
Qed.
Lemma inv_leave s : Inv s -> Inv (leave s).
Proof.
  intros I. unfold leave. pose proof (inv_stop (dkeys (topo s)) s I) as J.
  destruct (stop_nodes (dkeys (topo s)) s) as [s' []]; now apply inv_finish.
Qed.
Lemma inv_check s : Inv s -> Inv (check s).
Proof. unfold check. destruct (queue s); auto. intros I. apply inv_finish. revert I. apply inv_frame; reflexivity || auto. Qed.
Lemma inv_cmd c s : over s = None -> Inv s -> Inv (run_cmd w c s).
Proof.
  intros O I. destruct c; cbn [run_cmd]; auto using inv_monitor, inv_unmonitor, inv_rebuild, inv_leave.
Qed.
Lemma inv_step s e : Inv s -> Inv (step w s e).
Proof.
  intros I. destruct e as [[[[n i] now] p]|m1 c m2]; [now apply inv_arrive|]. cbn [step]. destruct (over s) eqn:O; auto.
  unfold run_line. set (s1 := arrivals m1 (check s)). assert (I1 : Inv s1) by now apply inv_arrivals, inv_check.
  assert (I2 : Inv (alive (run_cmd w c) s1)). { unfold alive. destruct (over s1) eqn:O1; auto. now apply inv_cmd. }
  pose proof (inv_arrivals m2 _ I2) as I3. unfold alive at 1. destruct (over (arrivals m2 _)); auto. now apply inv_check.
Qed.
Lemma inv_run l s : Inv s -> Inv (run w l s).
Proof. apply inv_fold. apply inv_step. Qed.
Lemma inv_start t : Inv (start t).
Proof. constructor; cbn; try discriminate; try lia; auto; try contradiction. constructor. Qed.
Lemma inv_reach s : reach w s -> Inv s.
Proof. intros (t & l & ->). apply inv_run, inv_start. Qed.

(** ** What is recorded *)
Definition Rec (n i : str) (h : nat) (s s' : state) : Prop :=
  att s' n i = Pcap h /\ topo s' = topo s /\ exists d, seen s' = seen s ++ d /\ Forall2 holds (written h d) (got n i d).
Lemma rec_trans n i h a b c : Rec n i h a b -> Rec n i h b c -> Rec n i h a c.
Proof.
  intros (A & T & d & E & F) (A' & T' & d' & E' & F'). split; [exact A'|]. split; [congruence|].
  exists (d ++ d'). split; [now rewrite E', E, app_assoc|]. rewrite written_app, got_app. now apply Forall2_app.
Qed.
Lemma rec_quiet n i h s s' d : att s n i = Pcap h -> att s' n i = att s n i -> topo s' = topo s -> seen s' = seen s ++ d ->
  written h d = [] -> got n i d = [] -> Rec n i h s s'.
Proof. intros A A' T E W G. split; [congruence|]. split; [exact T|]. exists d. split; [exact E|]. rewrite W, G. constructor. Qed.
Lemma rec_same n i h s s' : att s n i = Pcap h -> att s' n i = att s n i -> topo s' = topo s -> seen s' = seen s -> Rec n i h s s'.
Proof. intros A A' T E. apply rec_quiet with []; auto. now rewrite app_nil_r. Qed.

Lemma holds_record now b : holds (dump_record now b) (now, Ok b).
Proof. exists b. unfold dump_record. destruct (stamp now) eqn:E. cbn. rewrite E. auto. Qed.
Lemma got1_other n i a b now p : (a, b) <> (n, i) -> got n i [Got a b now p] = [].
Proof. intros N. cbn. destruct (str_spec a n), (str_spec b i); cbn; congruence. Qed.
Lemma rec_arrive n i h a b now p s : Inv s -> att s n i = Pcap h -> Rec n i h s (arrive a b now p s).
Proof.
  intros I A. unfold arrive.
  assert (J : Rec n i h s match nodes s a with
     | Running => match att s a b with
       | Pcap h => match p with Ok x => say (Got a b now p) (say (Written h (dump_record now x)) s) | Err _ => set_life a Ended s end
       | PcapNull => match p with Ok _ => finish Segv s | Err _ => set_life a Ended s end
       | Debug => set_life a Waiting (mkS (topo s) (shown s) (att s) (mgr s) (queue s ++ [a]) (nodes s) (nexth s) (seen s) (over s))
       | _ => say (Got a b now p) s end
     | _ => s end).
  { destruct (nodes s a); try (now apply rec_same).
    assert (D : (a, b) = (n, i) \/ (a, b) <> (n, i)).
    { destruct (String.string_dec a n) as [->|], (String.string_dec b i) as [->|]; auto; right; congruence. }
    destruct D as [D|D].
    - injection D as -> ->. rewrite A. destruct p as [x|e]; [|now apply rec_same].
      split; [exact A|]. split; [reflexivity|]. exists [Written h (dump_record now x); Got n i now (Ok x)].
      split; [cbn; now rewrite <- app_assoc|]. cbn. rewrite Nat.eqb_refl, !str_eqb_refl. cbn. constructor; [apply holds_record|constructor].
    - destruct (att s a b) as [|h'| | |] eqn:B.
      + apply rec_quiet with [Got a b now p]; auto. now apply got1_other.
      + destruct p as [x|e]; [|now apply rec_same].
        apply rec_quiet with [Written h' (dump_record now x); Got a b now (Ok x)]; auto.
        * cbn. now rewrite <- app_assoc.
        * cbn. destruct (Nat.eqb_spec h' h) as [->|]; [|reflexivity]. destruct (i_one s I _ _ _ _ _ A B) as [-> ->]. congruence.
        * change (got n i [Got a b now (Ok x)] = []). now apply got1_other.
      + destruct p; now apply rec_same.
      + now apply rec_same.
      + apply rec_quiet with [Got a b now p]; auto. now apply got1_other. }
  destruct (over s) as [[]|]; auto. now apply rec_same.
Qed.
Lemma rec_arrivals n i h l s : Inv s -> att s n i = Pcap h -> Rec n i h s (arrivals l s).
Proof.
  revert s. induction l as [|[[[a b] now] p] l IH]; intros s I A; [now apply rec_same|].
  pose proof (rec_arrive n i h a b now p s I A) as R. apply rec_trans with (arrive a b now p s); [exact R|].
  apply IH; [now apply inv_arrive|]. apply R.
Qed.

(** What one installation does. *)
Lemma add_at_frame h s p a b : (a, b) <> p -> att (add_at w h s p) a b = att s a b /\ shown (add_at w h s p) a b = shown s a b.
Proof.
  destruct p as [n i]. intros N. unfold add_at, add_monitor, construct.
  destruct h as [base| |f|]; cbn [kind_of]; try (destruct (negb (is_ascii _)); [|destruct (w _)]);
    cbn; unfold upd2; destruct (str_spec a n), (str_spec b i); cbn; auto; congruence.
Qed.
Lemma add_at_seen h s p : exists d, seen (add_at w h s p) = seen s ++ d /\ (forall x, written x d = []) /\ forall a b, got a b d = [].
Proof.
  destruct p as [n i]. unfold add_at, add_monitor, construct.
  destruct h as [base| |f|]; cbn [kind_of]; try (destruct (negb (is_ascii _)); [|destruct (w _)]); cbn;
    try (exists []; split; [now rewrite app_nil_r|split; reflexivity]); eexists; (split; [reflexivity|split; reflexivity]).
Qed.
Lemma add_at_rest h s p : topo (add_at w h s p) = topo s /\ queue (add_at w h s p) = queue s /\ nodes (add_at w h s p) = nodes s /\ over (add_at w h s p) = over s.
Proof.
  destruct p as [n i]. unfold add_at, add_monitor, construct.
  destruct h as [base| |f|]; cbn [kind_of]; try (destruct (negb (is_ascii _)); [|destruct (w _)]); cbn; auto.
Qed.
Lemma rec_add_at n i x h l s : ~ In (n, i) l -> att s n i = Pcap x -> Rec n i x s (fold_left (add_at w h) l s).
Proof.
  revert s. induction l as [|p l IH]; intros s N A; [now apply rec_same|].
  cbn [fold_left]. apply rec_trans with (add_at w h s p).
  - destruct (add_at_seen h s p) as (d & E & W & G).
    apply rec_quiet with d; auto; [|apply add_at_rest]. apply add_at_frame. intros <-. apply N. now left.
  - apply IH; [intros X; apply N; now right|]. destruct (add_at_frame h s p n i) as [E _]; [intros <-; apply N; now left|]. congruence.
Qed.
Lemma rec_remove n i x l s : ~ In (n, i) l -> att s n i = Pcap x ->
  Rec n i x s (fold_left (fun s '(n, i) => remove_monitor n i s) l s).
Proof.
  revert s. induction l as [|[a b] l IH]; intros s N A; [now apply rec_same|].
  cbn [fold_left]. assert (E : att (remove_monitor a b s) n i = att s n i).
  { cbn. apply upd2_other. intros X. apply N. left. congruence. }
  apply rec_trans with (remove_monitor a b s).
  - now apply rec_same.
  - apply IH; [intros X; apply N; now right|]. congruence.
Qed.
Lemma rec_check n i h s : att s n i = Pcap h -> Rec n i h s (check s).
Proof. intros A. unfold check. destruct (queue s); now apply rec_same. Qed.
Lemma stop_rec n i h ns s : att s n i = Pcap h -> Rec n i h s (fst (stop_nodes ns s)).
Proof.
  intros A. destruct (stop_nodes ns s) as [s' b] eqn:E. apply stop_frame in E as (T & _ & B & _ & _ & _ & S & _).
  cbn [fst]. apply rec_same; auto. now rewrite B.
Qed.
Lemma rec_cmd n i h c s m1 m2 : leaves_alone (topo s) n i (Line m1 c m2) -> att s n i = Pcap h -> Rec n i h s (run_cmd w c s).
Proof.
  intros L A. destruct c as [ws|ws|t| |]; cbn [leaves_alone run_cmd] in *.
  - unfold do_monitor. destruct (located (topo s) ws) as [[l r]|] eqn:E; [|now apply rec_same].
    destruct (how_of r) as [x|]; [|now apply rec_same]. apply rec_add_at; auto. intros X. apply L. exists l, r. auto.
  - unfold do_unmonitor. destruct (located (topo s) ws) as [[l r]|] eqn:E; [|now apply rec_same].
    apply rec_remove; auto. intros X. apply L. exists l, r. auto.
  - destruct L.
  - unfold leave. pose proof (stop_rec n i h (dkeys (topo s)) s A) as R. destruct (stop_nodes _ s) as [s' []]; exact R.
  - now apply rec_same.
Qed.
Lemma rec_step n i h e s : Inv s -> leaves_alone (topo s) n i e -> att s n i = Pcap h -> Rec n i h s (step w s e).
Proof.
  intros I L A. destruct e as [[[[a b] now] p]|m1 c m2]; [now apply rec_arrive|].
  cbn [step]. destruct (over s) eqn:O; [now apply rec_same|]. unfold run_line.
  pose proof (rec_check n i h s A) as R0. pose proof (inv_check s I) as I0.
  pose proof (rec_arrivals n i h m1 _ I0 (proj1 R0)) as R1. pose proof (inv_arrivals m1 _ I0) as I1.
  pose proof (rec_trans _ _ _ _ _ _ R0 R1) as R01. clear R0 R1 I0. set (s1 := arrivals m1 (check s)) in *.
  assert (R2 : Rec n i h s (alive (run_cmd w c) s1)).
  { unfold alive. destruct (over s1); [exact R01|]. eapply rec_trans; [exact R01|]. apply rec_cmd with m1 m2; [|apply R01].
    destruct R01 as (_ & -> & _). exact L. }
  assert (I2 : Inv (alive (run_cmd w c) s1)). { unfold alive. destruct (over s1) eqn:O1; auto. now apply inv_cmd. }
  pose proof (rec_trans _ _ _ _ _ _ R2 (rec_arrivals n i h m2 _ I2 (proj1 R2))) as R3.
  unfold alive at 1. destruct (over (arrivals m2 _)); auto. eapply rec_trans; [exact R3|]. apply rec_check. apply R3.
Qed.
Lemma rec_run n i h l s : Inv s -> Forall (leaves_alone (topo s) n i) l -> att s n i = Pcap h -> Rec n i h s (run w l s).
Proof.
  revert s. induction l as [|e l IH]; intros s I F A; [now apply rec_same|]. inversion F as [|? ? F1 F2]; subst.
  pose proof (rec_step n i h e s I F1 A) as R. eapply rec_trans; [exact R|]. apply IH; [now apply inv_step| |apply R].
  destruct R as (_ & -> & _). exact F2.
Qed.
Lemma mon_records s n i h l : reach w s -> att s n i = Pcap h -> Forall (leaves_alone (topo s) n i) l ->
  exists d, seen (run w l s) = seen s ++ d /\ Forall2 holds (written h d) (got n i d).
Proof. intros R A F. apply (rec_run n i h l s); auto. now apply inv_reach. Qed.

(** ** Running through all events *)
Definition Ext (P : obs -> Prop) (s s' : state) : Prop := exists d, seen s' = seen s ++ d /\ Forall P d.
Lemma Ext_same P s s' : seen s' = seen s -> Ext P s s'.
Proof. intros E. exists []. rewrite app_nil_r. auto. Qed.
Lemma Ext_one (P : obs -> Prop) s s' o : seen s' = seen s ++ [o] -> P o -> Ext P s s'.
Proof. intros E H. exists [o]. auto. Qed.
Lemma Ext_trans P a b c : Ext P a b -> Ext P b c -> Ext P a c.
Proof. intros (d & E & F) (d' & E' & F'). exists (d ++ d'). rewrite E', E, app_assoc. split; auto. apply Forall_app; auto. Qed.
Definition cmd_of (e : event) : option cmd := match e with Line _ c _ => Some c | _ => None end.

Section All.
Context (J : state -> Prop) (P : obs -> Prop) (ok : cmd -> Prop).
Context (Harr : forall s a b now p, J s -> J (arrive a b now p s) /\ Ext P s (arrive a b now p s)).
Context (Hcheck : forall s, over s = None -> J s -> J (check s) /\ Ext P s (check s)).
Context (Hcmd : forall s c, ok c -> over s = None -> J s -> J (run_cmd w c s) /\ Ext P s (run_cmd w c s)).
Lemma all_arrivals l s : J s -> J (arrivals l s) /\ Ext P s (arrivals l s).
Proof.
  revert s. induction l as [|[[[a b] now] p] l IH]; intros s H; [split; [exact H|now apply Ext_same]|].
  destruct (Harr s a b now p H) as [H1 E1]. destruct (IH _ H1) as [H2 E2]. split; [exact H2|]. eapply Ext_trans; eassumption.
Qed.
Lemma all_step s e : match cmd_of e with Some c => ok c | None => True end -> J s -> J (step w s e) /\ Ext P s (step w s e).
Proof.
  intros K H. destruct e as [[[[a b] now] p]|m1 c m2]; [now apply Harr|]. cbn [step cmd_of] in *.
  destruct (over s) eqn:O; [split; [exact H|now apply Ext_same]|]. unfold run_line.
  destruct (Hcheck s O H) as [H0 E0]. destruct (all_arrivals m1 _ H0) as [H1 E1]. set (s1 := arrivals m1 (check s)) in *.
  assert (X : J (alive (run_cmd w c) s1) /\ Ext P s (alive (run_cmd w c) s1)).
  { pose proof (Ext_trans _ _ _ _ E0 E1) as E. unfold alive. destruct (over s1) eqn:O1; [auto|].
    destruct (Hcmd s1 c K O1 H1) as [H2 E2]. split; [exact H2|]. eapply Ext_trans; eassumption. }
  destruct X as [H2 E2]. destruct (all_arrivals m2 _ H2) as [H3 E3]. pose proof (Ext_trans _ _ _ _ E2 E3) as E4.
  unfold alive at 1 3. destruct (over (arrivals m2 _)) eqn:O3; [auto|].
  destruct (Hcheck _ O3 H3) as [H5 E5]. split; [exact H5|]. eapply Ext_trans; eassumption.
Qed.
Lemma all_run l s : Forall (fun e => match cmd_of e with Some c => ok c | None => True end) l -> J s -> J (run w l s) /\ Ext P s (run w l s).
Proof.
  revert s. induction l as [|e l IH]; intros s F H; [split; [exact H|now apply Ext_same]|]. inversion F as [|? ? F1 F2]; subst.
  destruct (all_step s e) as [H1 E1]; auto. destruct (IH (step w s e)) as [H2 E2]; auto. split; [exact H2|]. eapply Ext_trans; eassumption.
Qed.
End All.
Lemma all_ok (ok : cmd -> Prop) l : (forall c, ok c) -> Forall (fun e => match cmd_of e with Some c => ok c | None => True end) l.
Proof. intros K. apply Forall_forall. intros e _. destruct (cmd_of e); auto. Qed.

(** One arrival, spelled out. *)
Lemma arrive_cases a b now p s :
  (arrive a b now p s = s) \/
  (nodes s a = Running /\ arrive a b now p s = say (Got a b now p) s /\ forall h, att s a b <> Pcap h) \/
  (exists h x, nodes s a = Running /\ att s a b = Pcap h /\ p = Ok x /\ arrive a b now p s = say (Got a b now p) (say (Written h (dump_record now x)) s)) \/
  (nodes s a = Running /\ arrive a b now p s = set_life a Ended s) \/
  (nodes s a = Running /\ att s a b = PcapNull /\ arrive a b now p s = finish Segv s) \/
  (nodes s a = Running /\ att s a b = Debug /\
   arrive a b now p s = set_life a Waiting (mkS (topo s) (shown s) (att s) (mgr s) (queue s ++ [a]) (nodes s) (nexth s) (seen s) (over s))).
Proof.
  unfold arrive. destruct (over s) as [[|e0| |]|]; auto;
    (destruct (nodes s a) eqn:N; [|left; reflexivity|left; reflexivity]); right;
    (destruct (att s a b) as [|h| | |] eqn:A;
     [left; split; [auto|split; [auto|discriminate]]
     |right; destruct p as [x|e]; [left; exists h, x; auto|right; left; auto]
     |right; right; destruct p as [x|e]; [right; left; auto|left; auto]
     |right; right; right; right; auto
     |left; split; [auto|split; [auto|discriminate]]]).
Qed.
Lemma check_cases s : check s = s /\ queue s = [] \/
  exists q a, queue s = a :: q /\ check s = finish (Died EName) (mkS (topo s) (shown s) (att s) (mgr s) q (nodes s) (nexth s) (seen s) (over s)).
Proof. unfold check. destruct (queue s) as [|a q]; [auto|right]. exists q, a. auto. Qed.

(** *** No writing after a monitor is gone *)
Definition Off (h : nat) (s : state) : Prop := h < nexth s /\ forall n i, att s n i <> Pcap h.
Definition not_written (h : nat) (o : obs) : Prop := match o with Written h' _ => h' <> h | _ => True end.
Lemma off_arrive h s a b now p : Off h s -> Off h (arrive a b now p s) /\ Ext (not_written h) s (arrive a b now p s).
Proof.
  intros [L A]. destruct (arrive_cases a b now p s) as [->|[(_ & -> & _)|[(h' & x & _ & B & _ & ->)|[(_ & ->)|[(_ & _ & ->)|(_ & _ & ->)]]]]];
    (split; [split; assumption|]).
  - now apply Ext_same.
  - eapply Ext_one; [reflexivity|exact I].
  - exists [Written h' (dump_record now x); Got a b now p]. split; [cbn; now rewrite <- app_assoc|].
    constructor; [|constructor; [exact I|constructor]]. cbn. intros ->. exact (A _ _ B).
  - now apply Ext_same.
  - now apply Ext_same.
  - now apply Ext_same.
Qed.
Lemma off_check h s : Off h s -> Off h (check s) /\ Ext (not_written h) s (check s).
Proof. intros H. destruct (check_cases s) as [[-> _]|(q & a & _ & ->)]; (split; [exact H|now apply Ext_same]). Qed.
Lemma off_add_at h x s p : Off h s -> Off h (add_at w x s p) /\ Ext (not_written h) s (add_at w x s p).
Proof.
  destruct p as [n i]. intros [L A]. split.
  - unfold add_at, add_monitor, construct.
    destruct x as [base| |f|]; cbn [kind_of]; try (destruct (negb (is_ascii _)); [|destruct (w _)]);
      (split; [cbn; lia|]); intros a b; cbn -[upd2]; try (apply A);
      match goal with |- upd2 ?f ?n ?i ?m a b <> _ => destruct (upd2_cases f n i m a b) as [(_ & _ & ->)|[_ ->]] end; try apply A; try discriminate.
    intros [= E]. lia.
  - destruct (add_at_seen x s (n, i)) as (d & E & W & _). exists d. split; [exact E|]. apply Forall_forall. intros o H.
    destruct o; cbn; auto. intros ->. assert (K : In r (written h d)).
    { unfold written. apply in_flat_map. exists (Written h r). split; [exact H|]. rewrite Nat.eqb_refl. now left. }
    rewrite W in K. destruct K.
Qed.
Lemma fold_all {A} (J : state -> Prop) P (f : state -> A -> state) l s : (forall s x, J s -> J (f s x) /\ Ext P s (f s x)) -> J s ->
  J (fold_left f l s) /\ Ext P s (fold_left f l s).
Proof.
  intros F. revert s. induction l as [|x l IH]; intros s H; [split; [exact H|now apply Ext_same]|].
  destruct (F s x H) as [H1 E1]. destruct (IH _ H1) as [H2 E2]. split; [exact H2|]. eapply Ext_trans; eassumption.
Qed.
Lemma reset_ext (P : obs -> Prop) l s : (forall h, P (Closed h)) -> Ext P s (reset l s).
Proof.
  intros C. revert s. induction l as [|[] l IH]; intros s; cbn [reset]; try (now apply Ext_same); auto.
  eapply Ext_trans; [|apply IH]. eapply Ext_one; [reflexivity|apply C].
Qed.
(** A rebuild: hangs while nodes are stopped, or comes to the reset. *)
Lemma rebuild_cases t s : exists s', topo s' = topo s /\ shown s' = shown s /\ att s' = att s /\ mgr s' = mgr s /\ queue s' = queue s /\
  nexth s' = nexth s /\ seen s' = seen s /\ over s' = over s /\ (forall n, nodes s n = Waiting -> nodes s' n = Waiting) /\
  (rebuild t s = finish Hung s' \/
   ((forall n, In n (dkeys (topo s)) -> nodes s n <> Waiting) /\ rebuild t s = reset (mgr s) (fresh_nodes t s'))).
Proof.
  unfold rebuild. destruct (stop_nodes (dkeys (topo s)) s) as [s' b] eqn:E. exists s'.
  pose proof (stop_frame _ _ _ _ E) as (A & B & C & D & F & G & H & K). do 8 (split; [assumption|]).
  assert (W : forall ns s s' b, stop_nodes ns s = (s', b) -> (forall n, nodes s n = Waiting -> nodes s' n = Waiting) /\
     (b = true -> forall n, In n ns -> nodes s n <> Waiting)).
  { clear. induction ns as [|m ns IH]; cbn [stop_nodes]; intros s s' b E.
    - injection E as <- <-. split; auto.
    - destruct (nodes s m) eqn:N.
      + destruct (IH _ _ _ E) as [X Y]. split.
        * intros n K. apply X. cbn. unfold upd1. destruct (str_spec n m); congruence.
        * intros -> n [<-|K] Z; [congruence|]. apply (Y eq_refl n K). cbn. unfold upd1. destruct (str_spec n m); congruence.
      + injection E as <- <-. split; [auto|discriminate].
      + destruct (IH _ _ _ E) as [X Y]. split.
        * intros n K. apply X. cbn. unfold upd1. destruct (str_spec n m); congruence.
        * intros -> n [<-|K] Z; [congruence|]. apply (Y eq_refl n K). cbn. unfold upd1. destruct (str_spec n m); congruence. }
  destruct (W _ _ _ _ E) as [X Y]. split; [exact X|]. destruct b; [right|now left]. split; [now apply Y|].
  unfold fresh_nodes. now rewrite <- D.
Qed.
Lemma off_cmd h s c : Off h s -> Off h (run_cmd w c s) /\ Ext (not_written h) s (run_cmd w c s).
Proof.
  intros H. destruct c as [ws|ws|t| |]; cbn [run_cmd].
  - unfold do_monitor. destruct (located _ ws) as [[l r]|]; [|split; [exact H|now apply Ext_same]].
    destruct (how_of r); [|split; [exact H|now apply Ext_same]]. apply fold_all; auto. intros. now apply off_add_at.
  - unfold do_unmonitor. destruct (located _ ws) as [[l r]|]; [|split; [exact H|now apply Ext_same]].
    apply fold_all; auto. intros s' [n i] [L A]. split; [|now apply Ext_same]. split; [exact L|]. intros a b. cbn -[upd2].
    destruct (upd2_cases (att s') n i Null a b) as [(_ & _ & ->)|[_ ->]]; [discriminate|apply A].
  - destruct (rebuild_cases t s) as (s' & _ & _ & A & _ & _ & N & S & _ & _ & [->|[_ ->]]).
    + split; [|now apply Ext_same]. destruct H as [L K]. split; cbn; [lia|]. intros. rewrite A. apply K.
    + destruct (reset_frame (mgr s) (fresh_nodes t s')) as (_ & _ & B & _ & M). split.
      * split; [rewrite M; cbn; destruct H; lia|]. intros. rewrite B. discriminate.
      * eapply Ext_trans; [|apply reset_ext; exact (fun _ => I)]. apply Ext_same. exact S.
  - unfold leave. destruct (stop_nodes (dkeys (topo s)) s) as [s' b] eqn:E. apply stop_frame in E as (_ & _ & A & _ & _ & N & S & _).
    destruct H as [L K]. destruct b; (split; [split; [cbn; lia|intros; cbn; rewrite A; apply K]|now apply Ext_same]).
  - split; [exact H|now apply Ext_same].
Qed.
Lemma off_run h l s : Off h s -> Ext (not_written h) s (run w l s).
Proof.
  intros H. apply (all_run (Off h) (not_written h) (fun _ => True)); auto.
  - intros. now apply off_arrive.
  - intros. now apply off_check.
  - intros. now apply off_cmd.
  - apply all_ok. auto.
Qed.
Lemma not_written_none h d : Forall (not_written h) d -> written h d = [].
Proof.
  induction 1 as [|o d H F IH]; [reflexivity|]. change (o :: d) with ([o] ++ d). rewrite written_app, IH, app_nil_r.
  destruct o; try reflexivity. cbn in *. destruct (Nat.eqb_spec h0 h); [contradiction|reflexivity].
Qed.
Lemma off_none h l s d : Off h s -> seen (run w l s) = seen s ++ d -> written h d = [].
Proof.
  intros H E. destruct (off_run h l s H) as (d' & E' & F). assert (d = d') by (apply app_inv_head with (seen s); congruence). subst.
  now apply not_written_none.
Qed.
End Files.
