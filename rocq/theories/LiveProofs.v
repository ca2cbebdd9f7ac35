(** Proofs about live capture. *)
From Verif Require Import BaseLemmas Enums Dict PacketModel LiveModel LiveSpec.
From Verif Require Import SockProofs.

Lemma same_spec a b : reflect (a = b) (same_name a b).
Proof. unfold same_name. destruct (string_dec a b); constructor; assumption. Qed.
(** Devices never change their name or link type. *)
Definition devs_of (n : lnet) : list (string * Z) := map (fun t => (t_name t, t_dlt t)) (v_th n).
Lemma split_nth {A} (l : list A) d x : nth_error l d = Some x -> l = firstn d l ++ x :: skipn (S d) l.
Proof. revert d. induction l as [|y l IH]; intros [|d] H; cbn [nth_error firstn skipn app] in *; try discriminate; [congruence|]. f_equal. apply IH. exact H. Qed.
Lemma set_th_devs d t n t0 : nth_error (v_th n) d = Some t0 -> t_name t = t_name t0 -> t_dlt t = t_dlt t0 -> devs_of (set_th d t n) = devs_of n.
Proof. intros H E1 E2. unfold devs_of, set_th. cbn [v_th]. rewrite (split_nth _ _ _ H) at 3. rewrite !map_app. cbn [map]. rewrite E1, E2. reflexivity. Qed.
Lemma step_devs n a n' r : l_step n a = (n', r) -> devs_of n' = devs_of n.
Proof. intros H. destruct a; cbn [l_step] in H.
  - unfold thread_step in H. destruct (nth_error (v_th n) d) as [t|] eqn:E; [|injection H as <- <-; reflexivity]. destruct (t_st t); [| destruct o| |]; injection H as <- <-; try reflexivity; try exact (set_th_devs d (mkThread (t_name t) (t_dlt t) _) n t E eq_refl eq_refl).
  - destruct (v_user n); injection H as <- <-; reflexivity.
  - unfold user_step in H. destruct (v_user n) as [|tmo|tmo x| |]; [injection H as <- <-; reflexivity|destruct (v_q n); [destruct tmo|]; injection H as <- <-; reflexivity| |injection H as <- <-; reflexivity|destruct (forallb done (v_th n)); injection H as <- <-; reflexivity].
    destruct (v_run n); [|injection H as <- <-; reflexivity]. destruct x as [[[nm dlt] f]|]; [|injection H as <- <-; reflexivity]. destruct (decoder dlt); [|injection H as <- <-; reflexivity]. destruct (pkt_new (snd f) h); injection H as <- <-; reflexivity.
  - destruct (v_user n); try (injection H as <- <-; reflexivity). destruct (v_run n); injection H as <- <-; reflexivity.
  - destruct (v_sig n); injection H as <- <-; reflexivity.
  - destruct (v_sig n); try (injection H as <- <-; reflexivity). Qed.

Lemma run_devs l : forall n n' log, l_run n l = (n', log) -> devs_of n' = devs_of n.
Proof. induction l as [|a l IH]; intros n n' log H; cbn [l_run] in H; [injection H as <- <-; reflexivity|]. destruct (l_step n a) as [n1 r] eqn:A. destruct (l_run n1 l) as [n2 lg] eqn:B. injection H as <- <-. rewrite (IH _ _ _ B). eapply step_devs. exact A. Qed.
(** Frames a step disposes of. *)
Definition gone1 (nm : string) (r : lres) : list frame :=
  match r with LPkt x f _ | LBad x f _ | LSkip x f => if same_name x nm then [f] else [] | LShutdown x => of_item nm x | _ => [] end.
Lemma threads_other nm l : ~ In nm (map t_name l) -> flat_map (of_thread nm) l = [].
Proof. induction l as [|t l IH]; cbn [map In flat_map]; [reflexivity|]. intros H. rewrite IH by tauto. unfold of_thread. destruct (same_spec (t_name t) nm); [tauto|reflexivity]. Qed.
(** At most one thread of a given name: its frame is the thread part. *)
Lemma set_th_wait nm d t t0 n : nth_error (v_th n) d = Some t0 -> t_name t = t_name t0 -> NoDup (map t_name (v_th n)) ->
  flat_map (of_thread nm) (v_th (set_th d t n)) = if same_name (t_name t0) nm then of_thread nm t else flat_map (of_thread nm) (v_th n).
Proof. intros H E N. cbn [set_th v_th]. rewrite flat_map_app. cbn [flat_map]. rewrite (split_nth _ _ _ H) in N. rewrite map_app in N. cbn [map] in N.
  destruct (same_spec (t_name t0) nm) as [<-|D].
  - apply NoDup_remove_2 in N. rewrite in_app_iff in N. rewrite !threads_other by tauto. rewrite app_nil_r. reflexivity.
  - rewrite (split_nth _ _ _ H) at 3. rewrite flat_map_app. cbn [flat_map]. assert (Z1 : of_thread nm t = []) by (unfold of_thread; rewrite E; destruct (same_spec (t_name t0) nm); [contradiction|reflexivity]).
    assert (Z2 : of_thread nm t0 = []) by (unfold of_thread; destruct (same_spec (t_name t0) nm); [contradiction|reflexivity]). rewrite Z1, Z2. reflexivity. Qed.
Lemma th_wait nm d t0 n : nth_error (v_th n) d = Some t0 -> NoDup (map t_name (v_th n)) -> same_name (t_name t0) nm = true -> flat_map (of_thread nm) (v_th n) = of_thread nm t0.
Proof. intros H N E. pose proof (set_th_wait nm d t0 t0 n H eq_refl N) as X. rewrite E in X. rewrite <- X. cbn [set_th v_th]. rewrite <- (split_nth _ _ _ H). reflexivity. Qed.
Lemma step_waiting nm n a n' r : NoDup (map t_name (v_th n)) -> l_step n a = (n', r) -> waiting nm n ++ captured nm [r] = gone1 nm r ++ waiting nm n'.
Proof. intros N H. destruct a; cbn [l_step] in H.
  - unfold thread_step in H. destruct (nth_error (v_th n) d) as [t|] eqn:E; [|injection H as <- <-; apply app_nil_r].
    destruct (t_st t) as [| |f|] eqn:St; [| destruct o as [f|]| |]; injection H as <- <-; cbn [captured gone1 flat_map app]; rewrite ?app_nil_r; unfold waiting.
    + rewrite (fun s => set_th_wait nm d (mkThread (t_name t) (t_dlt t) s) t n E eq_refl N). cbn [set_th v_user v_q]. destruct (same_name (t_name t) nm) eqn:S; [|reflexivity]. rewrite (th_wait _ _ _ _ E N S). unfold of_thread. cbn [t_name t_st]. rewrite S, St. destruct (v_run n); reflexivity.
    + rewrite (fun s => set_th_wait nm d (mkThread (t_name t) (t_dlt t) s) t n E eq_refl N). cbn [set_th v_user v_q]. destruct (same_name (t_name t) nm) eqn:S; [|rewrite app_nil_r; reflexivity]. rewrite (th_wait _ _ _ _ E N S). unfold of_thread. cbn [t_name t_st]. rewrite S, St. rewrite <- !app_assoc. reflexivity.
    + rewrite (fun s => set_th_wait nm d (mkThread (t_name t) (t_dlt t) s) t n E eq_refl N). cbn [set_th v_user v_q]. destruct (same_name (t_name t) nm) eqn:S; [|reflexivity]. rewrite (th_wait _ _ _ _ E N S). unfold of_thread. cbn [t_name t_st]. rewrite S, St. reflexivity.
    + cbn [set_q v_user v_q v_th]. change (v_th (set_q _ _)) with (v_th (set_th d (mkThread (t_name t) (t_dlt t) TTop) n)). rewrite (fun s => set_th_wait nm d (mkThread (t_name t) (t_dlt t) s) t n E eq_refl N). cbn [set_th v_user v_q]. rewrite flat_map_app. cbn [flat_map of_item].
      destruct (same_name (t_name t) nm) eqn:S; cbn [app]; rewrite ?app_nil_r; [|reflexivity]. rewrite (th_wait _ _ _ _ E N S). unfold of_thread. cbn [t_name t_st]. rewrite S, St, app_nil_r. reflexivity.
    + reflexivity.
  - destruct (v_user n) eqn:U; injection H as <- <-; cbn [captured gone1 flat_map app]; rewrite app_nil_r; try reflexivity. unfold waiting. cbn [set_user v_user v_q v_th]. rewrite U. reflexivity.
  - unfold user_step in H. unfold waiting. destruct (v_user n) as [|tmo|tmo x| |] eqn:U.
    + injection H as <- <-. cbn [captured gone1 flat_map app]. rewrite app_nil_r, U. reflexivity.
    + destruct (v_q n) as [|x q] eqn:Q; [destruct tmo|]; injection H as <- <-; cbn [captured gone1 flat_map app set_user set_q v_user v_q v_th of_user]; rewrite ?app_nil_r, ?U, ?Q; cbn [flat_map app of_user]; rewrite ?app_assoc; reflexivity.
    + destruct (v_run n); [|injection H as <- <-; cbn [captured gone1 flat_map app set_user v_user v_q v_th of_user]; rewrite app_nil_r; reflexivity].
      destruct x as [[[xn dlt] f]|]; [|injection H as <- <-; cbn [captured gone1 flat_map app set_user v_user v_q v_th of_user of_item]; rewrite app_nil_r; reflexivity].
      destruct (decoder dlt) as [c|]; [destruct (pkt_new (snd f) c)|]; injection H as <- <-; cbn [captured gone1 flat_map app set_user v_user v_q v_th of_user of_item]; rewrite app_nil_r; reflexivity.
    + injection H as <- <-. destruct (v_run n); cbn [captured gone1 flat_map app set_user v_user v_q v_th of_user of_item]; rewrite app_nil_r; reflexivity.
    + destruct (forallb done (v_th n)); injection H as <- <-; cbn [captured gone1 flat_map app set_user close_all v_user v_q v_th of_user of_item]; rewrite app_nil_r, ?U; reflexivity.
  - unfold waiting. destruct (v_user n) eqn:U; [destruct (v_run n)| | | |]; injection H as <- <-; cbn [captured gone1 flat_map app set_user stop_run v_user v_q v_th of_user]; rewrite app_nil_r, ?U; reflexivity.
  - destruct (v_sig n); injection H as <- <-; cbn [captured gone1 flat_map app]; rewrite app_nil_r; reflexivity.
  - destruct (v_sig n); injection H as <- <-; cbn [captured gone1 flat_map app]; rewrite app_nil_r; try reflexivity. unfold waiting. cbn [set_sig set_q v_user v_q v_th]. rewrite flat_map_app. cbn [flat_map of_item]. rewrite app_nil_r. reflexivity. Qed.
(** Everything queued or held comes from a device. *)
Definition known (ds : list (string * Z)) (x : option item) : Prop := match x with Some (d, dlt, _) => In (d, dlt) ds | None => True end.
Definition sound (n : lnet) : Prop := Forall (known (devs_of n)) (v_q n) /\ match v_user n with UHold _ x => known (devs_of n) x | _ => True end.
Lemma step_sound n a n' r : sound n -> l_step n a = (n', r) -> sound n'.
Proof. intros [S1 S2] H. pose proof (step_devs _ _ _ _ H) as D. unfold sound. rewrite D. clear D. destruct a; cbn [l_step] in H.
  - unfold thread_step in H. destruct (nth_error (v_th n) d) as [t|] eqn:E; [|injection H as <- <-; split; assumption].
    destruct (t_st t) as [| |f|] eqn:St; [| destruct o as [f|]| |]; injection H as <- <-; cbn [set_th set_q v_q v_user]; (split; [|exact S2]); try exact S1. apply Forall_app. split; [exact S1|]. constructor; [|constructor].
    cbn [known]. apply in_map_iff. exists t. split; [reflexivity|]. eapply nth_error_In. exact E.
  - destruct (v_user n) eqn:U; injection H as <- <-; (split; [exact S1|]); rewrite ?U; cbn [set_user v_user]; exact S2 || exact I.
  - unfold user_step in H. destruct (v_user n) as [|tmo|tmo x| |] eqn:U.
    + injection H as <- <-. rewrite U. split; assumption.
    + destruct (v_q n) as [|x q] eqn:Q; [destruct tmo|]; injection H as <- <-; cbn [set_user set_q v_user v_q]; rewrite ?U, ?Q; [split; auto|split; auto|]. inversion S1; subst. split; assumption.
    + destruct (v_run n); [|injection H as <- <-; split; [exact S1|exact I]]. destruct x as [[[xn dlt] f]|]; [|injection H as <- <-; split; [exact S1|exact I]].
      destruct (decoder dlt) as [c|]; [destruct (pkt_new (snd f) c)|]; injection H as <- <-; (split; [exact S1|exact I]).
    + injection H as <- <-. split; [exact S1|exact I].
    + destruct (forallb done (v_th n)); injection H as <- <-; [split; [exact S1|exact I]|]. rewrite U. split; assumption.
  - destruct (v_user n) eqn:U; [destruct (v_run n)| | | |]; injection H as <- <-; cbn [set_user v_user stop_run v_q]; rewrite ?U; (split; [exact S1|assumption || exact I]).
  - destruct (v_sig n); injection H as <- <-; split; assumption.
  - destruct (v_sig n); injection H as <- <-; try (split; assumption). cbn [set_sig set_q v_q v_user]. split; [|exact S2]. apply Forall_app. split; [exact S1|]. repeat constructor. Qed.
Lemma run_false n a n' r : l_step n a = (n', r) -> v_run n = false -> v_run n' = false.
Proof. intros H R. destruct a; cbn [l_step] in H.
  - unfold thread_step in H. destruct (nth_error (v_th n) d) as [t|]; [|injection H as <- <-; exact R]. destruct (t_st t) as [| |f|]; [| destruct o| |]; injection H as <- <-; exact R.
  - destruct (v_user n); injection H as <- <-; exact R.
  - unfold user_step in H. destruct (v_user n) as [|tmo|tmo x| |]; [injection H as <- <-; exact R|destruct (v_q n); [destruct tmo|]; injection H as <- <-; exact R| |injection H as <- <-; exact R|destruct (forallb done (v_th n)); injection H as <- <-; exact R].
    rewrite R in H. injection H as <- <-. exact R.
  - destruct (v_user n); [rewrite R in H| | | |]; injection H as <- <-; exact R.
  - destruct (v_sig n); injection H as <- <-; cbn [set_sig stop_run v_run]; exact R || reflexivity.
  - destruct (v_sig n); injection H as <- <-; exact R. Qed.
(** What a step hands over. *)
Lemma step_handed nm dlt n a n' r : NoDup (map t_name (v_th n)) -> In (nm, dlt) (devs_of n) -> sound n -> l_step n a = (n', r) ->
  handed nm [r] = if v_run n then flat_map (readable dlt) (gone1 nm r) else [].
Proof. intros N D [_ S2] H. assert (K : forall r0, r = r0 -> match r0 with LPkt _ _ _ | LBad _ _ _ | LSkip _ _ => False | LShutdown (Some _) => False | _ => True end -> handed nm [r] = if v_run n then flat_map (readable dlt) (gone1 nm r) else []).
  { intros r0 -> Hr. destruct r0 as [| | | | |[]| |]; try contradiction; destruct (v_run n); reflexivity. }
  destruct a; cbn [l_step] in H.
  - unfold thread_step in H. destruct (nth_error (v_th n) d) as [t|]; [|injection H as <- <-; eapply K; [reflexivity|exact I]]. destruct (t_st t) as [| |f|]; [| destruct o| |]; injection H as <- <-; eapply K; try reflexivity; exact I.
  - destruct (v_user n); injection H as <- <-; eapply K; try reflexivity; exact I.
  - unfold user_step in H. destruct (v_user n) as [|tmo|tmo x| |]; [injection H as <- <-; eapply K; try reflexivity; exact I|destruct (v_q n); [destruct tmo|]; injection H as <- <-; eapply K; try reflexivity; exact I| | |].
    + destruct (v_run n); [|injection H as <- <-; reflexivity]. destruct x as [[[xn xd] f]|]; [|injection H as <- <-; reflexivity].
      assert (X : same_name xn nm = true -> xd = dlt).
      { destruct (same_spec xn nm) as [->|]; [|discriminate]. intros _. cbn [known] in S2. clear - N D S2. unfold devs_of in *. induction (v_th n) as [|t l IH]; [contradiction|]. cbn [map In] in *. inversion N as [|? ? N1 N2]; subst.
        destruct D as [D|D], S2 as [S|S]; try congruence; [exfalso|exfalso|auto].
        - injection D as D1 D2. apply N1. rewrite D1. apply in_map_iff in S as (t2 & E & S). injection E as E1 E2. rewrite <- E1. apply in_map. exact S.
        - injection S as D1 D2. apply N1. rewrite D1. apply in_map_iff in D as (t2 & E & S). injection E as E1 E2. rewrite <- E1. apply in_map. exact S. }
      fold (decoder dlt) in *. unfold readable. fold (decoder dlt). destruct (decoder xd) as [c|] eqn:Dc; [destruct (pkt_new (snd f) c) as [p|e] eqn:P|]; injection H as <- <-; cbn [handed gone1 flat_map app];
        (destruct (same_name xn nm) eqn:S; [|reflexivity]); specialize (X eq_refl); subst xd; cbn [flat_map app]; rewrite Dc; rewrite ?P; reflexivity.
    + injection H as <- <-. destruct (v_run n); reflexivity.
    + destruct (forallb done (v_th n)); injection H as <- <-; eapply K; try reflexivity; exact I.
  - destruct (v_user n); [destruct (v_run n)| | | |]; injection H as <- <-; eapply K; try reflexivity; exact I.
  - destruct (v_sig n); injection H as <- <-; eapply K; try reflexivity; exact I.
  - destruct (v_sig n); injection H as <- <-; eapply K; try reflexivity; exact I. Qed.
Lemma captured_cons nm r l : captured nm (r :: l) = captured nm [r] ++ captured nm l.
Proof. unfold captured. cbn [flat_map]. rewrite app_nil_r. reflexivity. Qed.
Lemma handed_cons nm r l : handed nm (r :: l) = handed nm [r] ++ handed nm l.
Proof. unfold handed. cbn [flat_map]. rewrite app_nil_r. reflexivity. Qed.
Lemma devs_names n : map fst (devs_of n) = map t_name (v_th n).
Proof. unfold devs_of. rewrite map_map. reflexivity. Qed.
Lemma run_live nm dlt l : forall n n' log, NoDup (map fst (devs_of n)) -> In (nm, dlt) (devs_of n) -> sound n -> l_run n l = (n', log) ->
  exists h d, waiting nm n ++ captured nm log = h ++ d ++ waiting nm n' /\ handed nm log = flat_map (readable dlt) h /\ (v_run n' = true -> d = []) /\ (v_run n = false -> h = []).
Proof. induction l as [|a l IH]; intros n n' log N D S H; cbn [l_run] in H.
  - injection H as <- <-. exists [], []. cbn [captured flat_map app]. rewrite app_nil_r. repeat split.
  - destruct (l_step n a) as [n1 r] eqn:A. destruct (l_run n1 l) as [n2 lg] eqn:B. injection H as <- <-. pose proof (step_devs _ _ _ _ A) as Dv. destruct (IH n1 n2 lg ltac:(rewrite Dv; exact N) ltac:(rewrite Dv; exact D) (step_sound _ _ _ _ S A) B) as (h & d & E1 & E2 & E3 & E4).
    pose proof N as N'. rewrite devs_names in N'. pose proof (step_waiting nm _ _ _ _ N' A) as W. pose proof (step_handed nm dlt _ _ _ _ N' D S A) as Hd. rewrite captured_cons, handed_cons, app_assoc, W, <- app_assoc, E1, E2, Hd.
    destruct (v_run n) eqn:R.
    + exists (gone1 nm r ++ h), d. rewrite flat_map_app, <- app_assoc. repeat split; [exact E3|discriminate].
    + assert (h = []) by (apply E4; eapply run_false; eassumption). subst h. exists [], (gone1 nm r ++ d). cbn [flat_map app]. rewrite <- app_assoc. repeat split. intros X. exfalso.
      assert (Y : forall l n n' log, l_run n l = (n', log) -> v_run n = false -> v_run n' = false). { clear. induction l as [|a l IH]; intros n n' log H; cbn [l_run] in H; [injection H as <- <-; auto|]. destruct (l_step n a) as [n1 r] eqn:A. destruct (l_run n1 l) as [n2 lg] eqn:B. injection H as <- <-. intros R. eapply IH; [exact B|eapply run_false; eassumption]. }
      rewrite (Y _ _ _ _ B (run_false _ _ _ _ A R)) in X. discriminate. Qed.
Lemma start_devs devs : devs_of (l_start devs) = devs.
Proof. unfold devs_of, l_start. cbn [v_th]. rewrite map_map. cbn [t_name t_dlt]. induction devs as [|[a b] l IH]; cbn [map fst snd]; [reflexivity|]. rewrite IH. reflexivity. Qed.
Lemma start_waiting nm devs : waiting nm (l_start devs) = [].
Proof. unfold waiting, l_start. cbn [v_user v_q v_th of_user flat_map app]. induction devs as [|[a b] l IH]; cbn [map flat_map]; [reflexivity|]. rewrite IH. unfold of_thread. cbn [t_st]. destruct (same_name _ _); reflexivity. Qed.
Theorem live_order devs l n log nm dlt : NoDup (map fst devs) -> In (nm, dlt) devs -> l_run (l_start devs) l = (n, log) ->
  exists seen dropped, captured nm log = seen ++ dropped ++ waiting nm n /\ handed nm log = flat_map (readable dlt) seen /\ (v_run n = true -> dropped = []).
Proof. intros N D H. rewrite <- (start_devs devs) in N, D. destruct (run_live nm dlt l _ _ _ N D ltac:(split; [constructor|exact I]) H) as (h & d & E1 & E2 & E3 & _). rewrite start_waiting in E1. exists h, d. auto. Qed.
Theorem live_named devs l n log nm f p : NoDup (map fst devs) -> l_run (l_start devs) l = (n, log) -> In (LPkt nm f p) log -> In nm (map fst devs).
Proof. intros N H. assert (G : forall l n n' log, sound n -> l_run n l = (n', log) -> In (LPkt nm f p) log -> In nm (map fst (devs_of n))).
  { clear. induction l as [|a l IH]; intros n n' log S H I; cbn [l_run] in H; [injection H as <- <-; contradiction|]. destruct (l_step n a) as [n1 r] eqn:A. destruct (l_run n1 l) as [n2 lg] eqn:B. injection H as <- <-. destruct I as [->|I].
    - clear IH B. destruct S as [_ S2]. destruct a; cbn [l_step] in A.
      + unfold thread_step in A. destruct (nth_error (v_th n) d) as [t|]; [|discriminate]. destruct (t_st t) as [| |f0|]; [| destruct o| |]; discriminate.
      + destruct (v_user n); discriminate.
      + unfold user_step in A. destruct (v_user n) as [|tmo|tmo x| |]; [discriminate|destruct (v_q n); [destruct tmo|]; discriminate| |destruct (v_run n); discriminate|destruct (forallb done (v_th n)); discriminate]. destruct (v_run n); [|discriminate]. destruct x as [[[xn xd] f0]|]; [|discriminate].
        destruct (decoder xd) as [c|]; [|discriminate]. destruct (pkt_new (snd f0) c); [|discriminate]. injection A as <- <- <- <-. apply (in_map fst) in S2. exact S2.
      + destruct (v_user n); [destruct (v_run n)| | | |]; discriminate.
      + destruct (v_sig n); discriminate.
      + destruct (v_sig n); discriminate.
    - rewrite <- (step_devs _ _ _ _ A). eapply IH; [eapply step_sound; eassumption|exact B|exact I]. }
  intros I0. assert (S0 : sound (l_start devs)) by (split; [constructor|exact I]); specialize (G l _ _ _ S0 H I0). rewrite start_devs in G. exact G. Qed.

(** ** Shutdown *)
Lemma stopped_step n a n' r : v_run n = false -> l_step n a = (n', r) -> v_run n' = false /\ match r with LPkt _ _ _ | LBad _ _ _ | LSkip _ _ | LNoPackets => False | _ => True end.
Proof. intros R H. split; [eapply run_false; eassumption|]. destruct a; cbn [l_step] in H.
  - unfold thread_step in H. destruct (nth_error (v_th n) d) as [t|]; [|injection H as <- <-; exact I]. destruct (t_st t) as [| |f|]; [| destruct o| |]; injection H as <- <-; exact I.
  - destruct (v_user n); injection H as <- <-; exact I.
  - unfold user_step in H. rewrite R in H. destruct (v_user n) as [|tmo|tmo x| |]; [injection H as <- <-; exact I|destruct (v_q n); [destruct tmo|]; injection H as <- <-; exact I|injection H as <- <-; exact I..|destruct (forallb done (v_th n)); injection H as <- <-; exact I].
  - destruct (v_user n); [rewrite R in H| | | |]; injection H as <- <-; exact I.
  - destruct (v_sig n); injection H as <- <-; exact I.
  - destruct (v_sig n); injection H as <- <-; exact I. Qed.
Theorem stopped_run l : forall n n' log, v_run n = false -> l_run n l = (n', log) -> v_run n' = false /\ Forall (fun r => match r with LPkt _ _ _ | LBad _ _ _ | LSkip _ _ | LNoPackets => False | _ => True end) log.
Proof. induction l as [|a l IH]; intros n n' log R H; cbn [l_run] in H; [injection H as <- <-; auto|]. destruct (l_step n a) as [n1 r] eqn:A. destruct (l_run n1 l) as [n2 lg] eqn:B. injection H as <- <-. destruct (stopped_step _ _ _ _ R A) as [R1 X]. destruct (IH _ _ _ R1 B) as [R2 Y]. auto. Qed.
Definition others (a : lact) : Prop := match a with LThread _ _ | LSignal | LHandler => True | _ => False end.
Lemma others_user l : forall n n' log, Forall others l -> l_run n l = (n', log) -> v_user n' = v_user n.
Proof. induction l as [|a l IH]; intros n n' log O H; cbn [l_run] in H; [injection H as <- <-; reflexivity|]. destruct (l_step n a) as [n1 r] eqn:A. destruct (l_run n1 l) as [n2 lg] eqn:B. injection H as <- <-. inversion O as [|? ? O1 O2]; subst. rewrite (IH _ _ _ O2 B).
  clear IH B. destruct a; cbn [others] in O1; try contradiction; cbn [l_step] in A.
  - unfold thread_step in A. destruct (nth_error (v_th n) d) as [t|]; [|injection A as <- <-; reflexivity]. destruct (t_st t) as [| |f|]; [| destruct o| |]; injection A as <- <-; reflexivity.
  - destruct (v_sig n); injection A as <- <-; reflexivity.
  - destruct (v_sig n); injection A as <- <-; reflexivity. Qed.
Lemma run_app l1 : forall n l2, l_run n (l1 ++ l2) = (fst (l_run (fst (l_run n l1)) l2), snd (l_run n l1) ++ snd (l_run (fst (l_run n l1)) l2)).
Proof. induction l1 as [|a l1 IH]; intros n l2; cbn [app l_run]; [cbn [fst snd app]; apply surjective_pairing|]. destruct (l_step n a) as [n1 r]. rewrite IH. destruct (l_run n1 l1) as [n2 g]. cbn [fst snd]. reflexivity. Qed.
(** After shutdown, a receive with a timeout raises Shutdown after two steps of its own, whatever the others do meanwhile. *)
Theorem receive_after_shutdown n l1 l2 l3 : v_run n = false -> v_user n = UIdle -> Forall others l1 -> Forall others l2 -> Forall others l3 ->
  exists log x, snd (l_run n (l1 ++ [LCall true] ++ l2 ++ [LUser] ++ l3 ++ [LUser])) = log ++ [LShutdown x].
Proof. intros R U O1 O2 O3. rewrite run_app. destruct (l_run n l1) as [n1 g1] eqn:E1. cbn [fst snd]. rewrite run_app. assert (U1 : v_user n1 = UIdle) by (rewrite (others_user _ _ _ _ O1 E1); exact U). destruct (stopped_run _ _ _ _ R E1) as [R1 _].
  cbn [l_run l_step]. rewrite U1. cbn [fst snd]. rewrite run_app. destruct (l_run (set_user (UWant true) n1) l2) as [n2 g2] eqn:E2. cbn [fst snd]. assert (U2 : v_user n2 = UWant true) by (rewrite (others_user _ _ _ _ O2 E2); reflexivity). destruct (stopped_run _ _ _ _ (R1 : v_run (set_user (UWant true) n1) = false) E2) as [R2 _].
  rewrite run_app. cbn [l_run l_step]. unfold user_step at 1. assert (X : exists n3 u3, match v_q n2 with [] => (set_user UEmpty n2, LDone) | x :: q => (set_user (UHold true x) (set_q q n2), LDone) end = (n3, LDone) /\ v_run n3 = false /\ v_user n3 = u3 /\ (u3 = UEmpty \/ exists x, u3 = UHold true x)).
  { destruct (v_q n2) as [|x q]; eexists _, _; (split; [reflexivity|]); (split; [exact R2|]); (split; [reflexivity|]); cbn [set_user v_user]; eauto. }
  destruct X as (n3 & u3 & X & R3 & U3 & V3). assert (X' : user_step n2 = (n3, LDone)) by (unfold user_step; rewrite U2; exact X). rewrite X'. cbn [fst snd]. rewrite run_app. destruct (l_run n3 l3) as [n4 g4] eqn:E4. cbn [fst snd l_run l_step].
  assert (U4 : v_user n4 = u3) by (rewrite (others_user _ _ _ _ O3 E4); exact U3). destruct (stopped_run _ _ _ _ R3 E4) as [R4 _].
  assert (Y : exists x n5, user_step n4 = (n5, LShutdown x)). { unfold user_step. rewrite U4, R4. destruct V3 as [->|[x ->]]; eauto. }
  destruct Y as (x & n5 & Y). rewrite Y. cbn [fst snd]. exists (g1 ++ LDone :: g2 ++ LDone :: g4), x. rewrite <- app_assoc. cbn [app]. rewrite <- app_assoc. reflexivity. Qed.
Theorem shutdown_twice n n' r : v_run n = false -> l_step n LShut = (n', r) -> n' = n.
Proof. intros R H. cbn [l_step] in H. rewrite R in H. destruct (v_user n); injection H as <- <-; reflexivity. Qed.
(** ** Closing *)
Definition ended (n : lnet) : Prop := v_closed n = true -> forallb done (v_th n) = true.
Lemma done_th d t n : nth_error (v_th n) d = Some t -> forallb done (v_th n) = true -> t_st t = TDone.
Proof. intros E F. rewrite forallb_forall in F. apply nth_error_In in E. specialize (F _ E). unfold done in F. destruct (t_st t); congruence. Qed.
Lemma step_ended n a n' r : ended n -> l_step n a = (n', r) -> ended n'.
Proof. intros X H. destruct a; cbn [l_step] in H.
  - unfold thread_step in H. destruct (nth_error (v_th n) d) as [t|] eqn:E; [|injection H as <- <-; exact X].
    destruct (t_st t) as [| |f|] eqn:St; [| destruct o| |]; injection H as <- <-; try exact X; intros C; specialize (X C); pose proof (done_th _ _ _ E X); congruence.
  - destruct (v_user n); injection H as <- <-; exact X.
  - unfold user_step in H. destruct (v_user n) as [|tmo|tmo x| |]; [injection H as <- <-; exact X|destruct (v_q n); [destruct tmo|]; injection H as <- <-; exact X| |injection H as <- <-; exact X|].
    + destruct (v_run n); [|injection H as <- <-; exact X]. destruct x as [[[nm dlt] f]|]; [|injection H as <- <-; exact X]. destruct (decoder dlt); [|injection H as <- <-; exact X]. destruct (pkt_new (snd f) h); injection H as <- <-; exact X.
    + destruct (forallb done (v_th n)) eqn:F; injection H as <- <-; [intros _; exact F|exact X].
  - destruct (v_user n); try (injection H as <- <-; exact X). destruct (v_run n); injection H as <- <-; exact X.
  - destruct (v_sig n); injection H as <- <-; exact X.
  - destruct (v_sig n); try (injection H as <- <-; exact X). Qed.
Lemma closed_stays n a n' r : v_closed n = true -> l_step n a = (n', r) -> v_closed n' = true.
Proof. intros X H. destruct a; cbn [l_step] in H.
  - unfold thread_step in H. destruct (nth_error (v_th n) d) as [t|]; [|injection H as <- <-; exact X]. destruct (t_st t) as [| |f|]; [| destruct o| |]; injection H as <- <-; exact X.
  - destruct (v_user n); injection H as <- <-; exact X.
  - unfold user_step in H. destruct (v_user n) as [|tmo|tmo x| |]; [injection H as <- <-; exact X|destruct (v_q n); [destruct tmo|]; injection H as <- <-; exact X| |injection H as <- <-; exact X|].
    + destruct (v_run n); [|injection H as <- <-; exact X]. destruct x as [[[nm dlt] f]|]; [|injection H as <- <-; exact X]. destruct (decoder dlt); [|injection H as <- <-; exact X]. destruct (pkt_new (snd f) h); injection H as <- <-; exact X.
    + destruct (forallb done (v_th n)); injection H as <- <-; [reflexivity|exact X].
  - destruct (v_user n); try (injection H as <- <-; exact X). destruct (v_run n); injection H as <- <-; exact X.
  - destruct (v_sig n); injection H as <- <-; exact X.
  - destruct (v_sig n); try (injection H as <- <-; exact X). Qed.
Lemma run_ended l : forall n n' log, ended n -> l_run n l = (n', log) -> ended n'.
Proof. induction l as [|a l IH]; intros n n' log E H; cbn [l_run] in H; [injection H as <- <-; exact E|]. destruct (l_step n a) as [n1 r] eqn:A. destruct (l_run n1 l) as [n2 lg] eqn:B. injection H as <- <-. eapply IH; [eapply step_ended; eassumption|exact B]. Qed.
Lemma closed_no_cap l : forall n n' log, ended n -> v_closed n = true -> l_run n l = (n', log) -> v_closed n' = true /\ forall nm, captured nm log = [].
Proof. induction l as [|a l IH]; intros n n' log E C H; cbn [l_run] in H; [injection H as <- <-; auto|]. destruct (l_step n a) as [n1 r] eqn:A. destruct (l_run n1 l) as [n2 lg] eqn:B. injection H as <- <-.
  destruct (IH _ _ _ (step_ended _ _ _ _ E A) (closed_stays _ _ _ _ C A) B) as [C2 K]. split; [exact C2|]. intros nm. rewrite captured_cons, K, app_nil_r. clear -A E C. specialize (E C).
  destruct a; cbn [l_step] in A.
  - unfold thread_step in A. destruct (nth_error (v_th n) d) as [t|] eqn:X; [|injection A as <- <-; reflexivity]. rewrite (done_th _ _ _ X E) in A. injection A as <- <-. reflexivity.
  - destruct (v_user n); injection A as <- <-; reflexivity.
  - unfold user_step in A. destruct (v_user n) as [|tmo|tmo x| |]; [injection A as <- <-; reflexivity|destruct (v_q n); [destruct tmo|]; injection A as <- <-; reflexivity| |injection A as <- <-; destruct (v_run n); reflexivity|destruct (forallb done (v_th n)); injection A as <- <-; reflexivity].
    destruct (v_run n); [|injection A as <- <-; reflexivity]. destruct x as [[[xn dlt] f]|]; [|injection A as <- <-; reflexivity]. destruct (decoder dlt); [|injection A as <- <-; reflexivity]. destruct (pkt_new (snd f) h); injection A as <- <-; reflexivity.
  - destruct (v_user n); [destruct (v_run n)| | | |]; injection A as <- <-; reflexivity.
  - destruct (v_sig n); injection A as <- <-; reflexivity.
  - destruct (v_sig n); injection A as <- <-; reflexivity. Qed.
(** shutdown() called while running: once it has returned, devices are closed and nothing is captured any more. *)
Theorem shutdown_closes devs l0 n l1 n1 log1 n2 l2 n3 log3 : l_run (l_start devs) l0 = (n, snd (l_run (l_start devs) l0)) -> v_run n = true -> v_user n = UIdle ->
  Forall others l1 -> l_run (fst (l_step n LShut)) l1 = (n1, log1) -> l_step n1 LUser = (n2, LDone) -> l_run n2 l2 = (n3, log3) -> v_closed n3 = true /\ forall nm, captured nm log3 = [].
Proof. intros H0 R U O H1 H2 H3. assert (E : ended n) by (eapply run_ended; [|exact H0]; discriminate). cbn [l_step] in H1. rewrite U, R in H1. cbn [fst] in H1.
  assert (E1 : ended n1) by (eapply run_ended; [|exact H1]; exact E). assert (U1 : v_user n1 = UJoin) by (rewrite (others_user _ _ _ _ O H1); reflexivity).
  pose proof (step_ended _ _ _ _ E1 H2) as E2. cbn [l_step] in H2. unfold user_step in H2. rewrite U1 in H2. destruct (forallb done (v_th n1)); [|discriminate]. injection H2 as <-. eapply closed_no_cap; [exact E2|reflexivity|exact H3]. Qed.
