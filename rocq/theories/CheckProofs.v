From Verif Require Import BaseLemmas Dict DictLemmas PacketModel PacketSpec NetModel TestModel TestSpec TestMatch TestScript CheckModel CheckSpec.
#[local] Open Scope string_scope.
#[local] Open Scope Z_scope.
#[local] Open Scope list_scope.

Lemma warn_true e : warn e <> Ok true.
Proof. unfold warn. destruct (ev_shows e); discriminate. Qed.
Lemma both_true a r : both a r = Ok true <-> a = true /\ r = Ok true.
Proof. unfold both. destruct r as [b|e]; cbn [bindr]; [|split; [discriminate|intros [_ X]; discriminate]]. destruct a, b; cbn; intuition congruence. Qed.
Lemma seq_true (r : res bool) k : (a <- r;; both a k) = Ok true <-> r = Ok true /\ k = Ok true.
Proof.
  destruct r as [a|e]; cbn [bindr]; [|split; [discriminate|intros [X _]; discriminate]]. rewrite both_true. split; [intros [-> ->]; auto|intros [X ->]; injection X as ->; auto].
Qed.
Lemma din_In {A} k (d : dict A) : din k d = true <-> In k (dkeys d). Proof. apply din_iff. Qed.
Lemma dev_true s e d : (if din d (sc_ifs s) then Ok true else warn e) = Ok true <-> In d (dkeys (sc_ifs s)).
Proof.
  rewrite <- din_In. destruct (din d (sc_ifs s)); split; try reflexivity; try discriminate. intros H. exfalso. exact (warn_true e H).
Qed.
Lemma devs_true s e ds : check_devs s e ds = Ok true <-> forall d, In d ds -> In d (dkeys (sc_ifs s)).
Proof.
  induction ds as [|d ds IH]; cbn [check_devs]; [split; [intros _ d []|reflexivity]|]. rewrite seq_true, dev_true, IH. split.
  - intros [A B] x [<-|X]; auto.
  - intros H. split; [apply H; left; reflexivity|intros x X; apply H; right; exact X].
Qed.
Lemma event_true s e : check_event s e = Ok true <-> in_order (sc_ifs s) e.
Proof.
  destruct e as [dev p|n|o]; cbn [check_event in_order]; [apply dev_true|tauto|]. rewrite seq_true, devs_true.
  destruct (oe_wait o) as [|x w] eqn:W; [|rewrite <- W; split; [intros [_ H]; split; [rewrite W; discriminate|exact H]|intros [_ H]; split; [reflexivity|exact H]]].
  split; [intros [H _]; exfalso; exact (warn_true _ H)|intros [H _]; contradiction].
Qed.
Theorem sanity_true s : sanity s = Ok true <-> well_formed s.
Proof.
  unfold sanity, well_formed. induction (sc_pend s) as [|e l IH]; cbn [check_events]; [split; [intros _ e []|reflexivity]|]. rewrite seq_true, event_true, IH. split.
  - intros [A B] x [<-|X]; auto.
  - intros H. split; [apply H; left; reflexivity|intros x X; apply H; right; exact X].
Qed.

Lemma both_ok a r : (exists b, r = Ok b) -> exists b, both a r = Ok b. Proof. intros [b ->]. exists (a && b)%bool. reflexivity. Qed.
Lemma seq_ok (r : res bool) k : (exists a, r = Ok a) -> (exists b, k = Ok b) -> exists c, (a <- r;; both a k) = Ok c.
Proof. intros [a ->] K. cbn [bindr]. apply both_ok, K. Qed.
Lemma warn_ok e : ev_shows e = true -> exists b, warn e = Ok b. Proof. intros H. unfold warn. rewrite H. eauto. Qed.
Lemma check_ok s : Forall (fun e => ev_shows (sv_ev e) = true) (sc_pend s) -> exists b, sanity s = Ok b.
Proof.
  unfold sanity. induction 1 as [|e l E F IH]; cbn [check_events]; [eauto|]. apply seq_ok; [|exact IH].
  assert (D : forall ev ds, ev_shows ev = true -> exists b, check_devs s ev ds = Ok b).
  { intros ev ds V. induction ds as [|d ds IHd]; cbn [check_devs]; [eauto|]. apply seq_ok; [|exact IHd]. destruct (din d (sc_ifs s)); [eauto|apply warn_ok, V]. }
  destruct (sv_ev e) as [dev p|n|o] eqn:V; cbn [check_event].
  - destruct (din dev (sc_ifs s)); [eauto|apply warn_ok; exact E].
  - eauto.
  - apply seq_ok; [|apply D, E]. destruct (oe_wait o); [apply warn_ok, E|eauto].
Qed.

(** ** A scenario in order can be passed *)
Lemma deliver s e : in_order (sc_ifs s) e -> usable e -> deliverable (sc_ifs s) e.
Proof. destruct e as [dev p|n|o]; cbn [in_order usable deliverable]; auto. intros D (q & p' & b & A & B). split; [exact D|]. eauto. Qed.
Lemma sends_for ifs w : (forall dev m, In (dev, m) w -> exists p, printable p /\ meets m p) -> exists cs, Forall2 (send_for ifs) w cs /\ Forall printable_call cs.
Proof.
  induction w as [|[dev m] w IH]; intros H; [exists []; split; constructor|]. destruct IH as (cs & A & B); [intros d x X; apply (H d x); right; exact X|].
  destruct (H dev m (or_introl eq_refl)) as (p & P & M). exists (CSend (DName dev) p :: cs). split; constructor; auto. exists (DName dev), p. repeat split. exact M.
Qed.
Lemma can_follow ifs es : Forall possible es -> exists cs, follows ifs es cs /\ Forall printable_call cs.
Proof.
  induction 1 as [|e es P F (cs & A & B)]; [exists []; split; constructor|]. destruct e as [dev p|n|o]; cbn [possible] in P.
  - exists (CRecv :: cs). split; [constructor; exact A|constructor; [exact I|exact B]].
  - exists (CRecv :: cs). split; [constructor; exact A|constructor; [exact I|exact B]].
  - destruct (sends_for ifs (oe_wait o) P) as (ss & C & D). exists (ss ++ cs). split; [|apply Forall_app; auto]. apply (f_out ifs o (oe_wait o)); auto.
Qed.

(** ** Comparing *)
Lemma str_eqb_sym a b : str_eqb a b = str_eqb b a. Proof. apply String.eqb_sym. Qed.
Section Eq.
Context (show : packet -> str) (show_raw : bytes -> str).
Notation same := (scen_same show show_raw).
Lemma ev_refl e : ev_same show show_raw e e = true.
Proof. destruct e; cbn [ev_same]; rewrite ?str_eqb_refl, ?Z.eqb_refl; reflexivity. Qed.
Lemma sevs_refl l : sevs_same show show_raw l l = true.
Proof. induction l as [|e l IH]; [reflexivity|]. cbn [sevs_same]. unfold sev_same. rewrite ev_refl, str_eqb_refl, Z.eqb_refl, IH. reflexivity. Qed.
Lemma ev_sym a b : ev_same show show_raw a b = ev_same show show_raw b a.
Proof. destruct a, b; cbn [ev_same]; try reflexivity; rewrite ?(str_eqb_sym dev), ?(str_eqb_sym (show p)), ?(str_eqb_sym (out_text show show_raw o)), ?(Z.eqb_sym secs); reflexivity. Qed.
Lemma sevs_sym l : forall m, sevs_same show show_raw l m = sevs_same show show_raw m l.
Proof. induction l as [|a l IH]; intros [|b m]; try reflexivity. cbn [sevs_same]. unfold sev_same. rewrite IH, ev_sym, str_eqb_sym, Z.eqb_sym. reflexivity. Qed.
Lemma ev_trans a b c : ev_same show show_raw a b = true -> ev_same show show_raw b c = true -> ev_same show show_raw a c = true.
Proof.
  destruct a, b, c; cbn [ev_same]; try discriminate; rewrite ?Bool.andb_true_iff, ?str_eqb_eq, ?Z.eqb_eq; intuition congruence.
Qed.
Lemma sevs_trans l : forall m n, sevs_same show show_raw l m = true -> sevs_same show show_raw m n = true -> sevs_same show show_raw l n = true.
Proof.
  induction l as [|a l IH]; intros [|b m] [|c n]; try discriminate; auto. cbn [sevs_same]. unfold sev_same. rewrite !Bool.andb_true_iff, !str_eqb_eq, !Z.eqb_eq.
  intros [[[A B] C] D] [[[E F] G] H]. split; [split; [split|]|]; try congruence; eauto using ev_trans.
Qed.
Theorem same_equivalence s t u : same s s = true /\ same s t = same t s /\ (same s t = true -> same t u = true -> same s u = true).
Proof.
  unfold scen_same. split; [rewrite Z.eqb_refl; apply sevs_refl|]. split; [rewrite Z.eqb_sym, sevs_sym; reflexivity|].
  rewrite !Bool.andb_true_iff, !Z.eqb_eq. intros [A B] [C D]. split; [congruence|eauto using sevs_trans].
Qed.
(** Saved and loaded. *)
Lemma same_text l m : (forall p q, same_pkt p q -> show p = show q) -> Forall2 same_sev l m -> sevs_same show show_raw l m = true.
Proof.
  intros K. induction 1 as [|a b l m (D & T & E) F IH]; [reflexivity|]. cbn [sevs_same]. unfold sev_same. rewrite D, T, str_eqb_refl, Z.eqb_refl, IH, !Bool.andb_true_r.
  destruct (sv_ev a) as [d p|n|o], (sv_ev b) as [d' q|n'|o']; cbn [same_event ev_same] in *; try contradiction.
  - destruct E as [-> S]. rewrite str_eqb_refl, (K _ _ S), str_eqb_refl. reflexivity.
  - subst. apply Z.eqb_refl.
  - destruct E as [W G]. apply str_eqb_eq. unfold out_text. rewrite G. f_equal. f_equal. f_equal. f_equal.
    clear G. induction W as [|x y w w' [A (_ & _ & _ & S)] W IHw]; [reflexivity|]. cbn [map]. rewrite A, (K _ _ S), IHw. reflexivity.
Qed.
End Eq.
