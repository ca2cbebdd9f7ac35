(** C124: device discovery, on any system and through any history of calls. *)
From Coq Require FinFun.
From Verif Require Import BaseLemmas EthAddrModel UnitModel Dict DictLemmas NetModel NetProofs NetProps DiscModel DiscSpec DiscProofs UnitSpec UnitText.
#[local] Open Scope string_scope.
#[local] Open Scope Z_scope.
#[local] Open Scope list_scope.

(** Every device of the system is reported, in the system's order, up or not, and no other.  (Names and descriptions are ASCII
    text; not on Windows.) *)
Theorem C124_reported_partial : forall l, Forall plain_dev l -> exists ds, snd (pcap_devices false (Found l) None) = Ok ds /\ Forall2 describes l ds.
Proof. intros l H. exists (discover false 0 l). split; [reflexivity|]. apply discover_describes. exact H. Qed.
Print Assumptions C124_reported_partial.
Example C124_example : let l := [mkCdev [101; 110; 48] None 6; mkCdev [108; 111] (Some [76; 111; 111; 112]) 7; mkCdev [101; 110; 49] None 0] in Forall plain_dev l /\
  snd (pcap_devices false (Found l) None) = Ok [mkPi [101; 110; 48] [101; 110; 48] [101; 110; 48] false true true; mkPi [108; 111] [108; 111] [76; 111; 111; 112] true true true; mkPi [101; 110; 49] [101; 110; 49] [101; 110; 49] false false false].
Proof. split; [repeat constructor; cbn; lia|reflexivity]. Qed.
(** Different devices have different names when those are ASCII text, and on Windows always. *)
Theorem C124_distinct_partial : forall win l ds, (win = false -> Forall plain_dev l /\ NoDup (map cd_name l)) -> snd (pcap_devices win (Found l) None) = Ok ds -> NoDup (map pi_name ds) /\ List.length ds = List.length l.
Proof.
  intros win l ds H E. injection E as <-. assert (L : forall k, List.length (discover win k l) = List.length l) by (induction l as [|d l IH]; intros k; cbn [discover List.length]; [reflexivity|]; f_equal; apply IH; intros W; destruct (H W) as [A B]; inversion A; inversion B; auto).
  split; [|apply L]. destruct win.
  - rewrite discover_names by lia. apply FinFun.Injective_map_NoDup; [|apply seq_NoDup]. intros i j E. apply app_inv_head in E. apply (f_equal (numv 0)) in E. rewrite !dec_value in E by lia. lia.
  - destruct (H eq_refl) as [P N]. pose proof (discover_describes l 0 P) as D. assert (M : map pi_name (discover false 0 l) = map cd_name l); [|rewrite M; exact N]. clear -D. induction D as [|d p ds ps X _ IH]; [reflexivity|]. cbn [map]. rewrite IH. destruct X as [-> _]. reflexivity.
Qed.
Print Assumptions C124_distinct_partial.
Theorem C124_distinct_refuted : exists a b ds, cd_name a <> cd_name b /\ snd (pcap_devices false (Found [a; b]) None) = Ok ds /\ exists x y, ds = [x; y] /\ pi_name x = pi_name y /\ pi_internal x = pi_internal y.
Proof. exists (mkCdev [195; 169; 48] None 6), (mkCdev [195; 168; 48] None 6). eexists. split; [discriminate|]. split; [reflexivity|]. do 2 eexists. split; [reflexivity|]. auto. Qed.
Print Assumptions C124_distinct_refuted.
(** The devices are asked for once: every later call gives the same list, whatever has become of the system. *)
Theorem C124_snapshot : forall win l more, exists ds, calls win (Found l :: more) None = Ok ds :: map (fun _ => Ok ds) more.
Proof. intros win l more. exists (discover win 0 l). cbn [calls pcap_devices make_instance]. rewrite calls_known. reflexivity. Qed.
Print Assumptions C124_snapshot.
(** A first call that fails raises an exception. *)
Theorem C124_fails : forall win a more, (a = NoLib \/ a = FindFails) -> exists r, calls win (a :: more) None = Err EExc :: r.
Proof. intros win a more [-> | ->]; eexists; reflexivity. Qed.
Print Assumptions C124_fails.
(** But the object stays: when pcap_findalldevs has failed once, every later call reports that there are no devices, without an
    exception and whatever the system has; without libpcap every later call raises AttributeError. *)
Theorem C124_retry_refuted : exists l, l <> [] /\ forall win, calls win [FindFails; Found l] None = [Err EExc; Ok []].
Proof. exists [mkCdev [101; 110; 48] None 6]. split; [discriminate|]. intros win. reflexivity. Qed.
Print Assumptions C124_retry_refuted.
Theorem C124_after_failure : forall win more, calls win (FindFails :: more) None = Err EExc :: map (fun _ => Ok []) more /\ calls win (NoLib :: more) None = Err EExc :: map (fun _ => Err EAttr) more.
Proof. intros win more. cbn [calls pcap_devices make_instance]. rewrite calls_known, calls_nolib. auto. Qed.
Print Assumptions C124_after_failure.
(** Without --intf the program uses the devices of the system that are not loopback devices, have an index and are not excluded, each
    once. *)
Theorem C124_listed_partial : forall l ds index exclude, Forall plain_dev l -> snd (pcap_devices false (Found l) None) = Ok ds ->
  NoDup (assemble ds index None exclude) /\
  forall name, plain name -> (In (as_str name) (assemble ds index None exclude) <-> (exists d, In d l /\ cd_name d = name /\ Z.even (cd_flags d) = true) /\ index (as_str name) = true /\ ~ (exists x, exclude = Some x /\ In (as_str name) x)).
Proof.
  intros l ds index exclude P E. pose proof (C124_reported_partial l P) as (ds' & E' & D). assert (ds' = ds) by congruence. subst ds'. clear E E'. split; [apply make_NoDup|]. intros name Pn. unfold assemble. rewrite make_spec by (left; reflexivity). unfold usable.
  assert (A : In (as_str name, false) (map (fun d => (as_str (pi_name d), pi_loop d)) ds) <-> exists d, In d l /\ cd_name d = name /\ Z.even (cd_flags d) = true).
  { induction D as [|d p l0 ds0 X D IH].
    - cbn. split; [intros []|intros (? & [] & _)].
    - inversion P as [|? ? Pd P0]; subst. cbn [map In]. rewrite (IH P0). destruct X as (X1 & _ & _ & X2 & _). rewrite X1. split.
      + intros [Y|(d0 & Y1 & Y2)]; [|exists d0; cbn [In]; tauto]. injection Y as Y1 Y2. exists d. split; [left; reflexivity|]. split; [apply as_str_inj; [apply Pd|exact Pn|exact Y1]|]. rewrite <- Z.negb_odd. apply negb_true_iff. destruct (Z.odd (cd_flags d)); [|reflexivity]. assert (pi_loop p = true) by (apply X2; reflexivity). congruence.
      + intros (d0 & [Y|Y] & Y1 & Y2); [left; subst d0|right; exists d0; auto]. rewrite Y1. f_equal. destruct (pi_loop p); [|reflexivity]. assert (Z.odd (cd_flags d) = true) by (apply X2; reflexivity). rewrite <- Z.negb_odd in Y2. rewrite H in Y2. discriminate. }
  rewrite A. destruct exclude as [x|].
  - split.
    + intros ([I [L|[_ []]]] & N & _). split; [exact L|]. split; [exact I|]. intros (y & Y & Z0). injection Y as <-. contradiction.
    + intros (L & I & N). split; [auto|]. split; [|left; reflexivity]. intros H. apply N. eauto.
  - split.
    + intros ([I [L|[_ []]]] & N & _). split; [exact L|]. split; [exact I|]. intros (y & Y & _). discriminate.
    + intros (L & I & N). split; [auto|]. split; [intros []|left; reflexivity].
Qed.
Print Assumptions C124_listed_partial.
Example C124_listed_example : let l := [mkCdev [101; 110; 48] None 6; mkCdev [108; 111] None 7; mkCdev [101; 110; 49] None 0] in
  exists ds, snd (pcap_devices false (Found l) None) = Ok ds /\ assemble ds (fun _ => true) None None = ["en0"; "en1"] /\ assemble ds (fun _ => true) None (Some ["en1"]) = ["en0"] /\ assemble ds (fun _ => true) (Some ["lo"]) None = ["lo"].
Proof. eexists. split; [reflexivity|]. repeat split; reflexivity. Qed.

(** With --intf naming at least one device of the system, loopback or not, the program uses exactly the devices named that exist, have an index and are not excluded. *)
Theorem C124_chosen_partial : forall l ds index inc exclude, Forall plain_dev l -> snd (pcap_devices false (Found l) None) = Ok ds -> (exists d, In d l /\ In (as_str (cd_name d)) inc) ->
  forall name, plain name -> (In (as_str name) (assemble ds index (Some inc) exclude) <->
    (exists d, In d l /\ cd_name d = name) /\ In (as_str name) inc /\ index (as_str name) = true /\ ~ (exists x, exclude = Some x /\ In (as_str name) x)).
Proof.
  intros l ds index inc exclude P E (d0 & I0 & J0) name Pn. pose proof (C124_reported_partial l P) as (ds' & E' & D). assert (ds' = ds) by congruence. subst ds'. clear E E'. unfold assemble.
  assert (A : forall nm, plain nm -> (exists b, In (as_str nm, b) (map (fun d => (as_str (pi_name d), pi_loop d)) ds)) <-> exists d, In d l /\ cd_name d = nm).
  { clear I0 J0 Pn. intros nm Pn. induction D as [|d p l0 ds0 X D IH].
    - cbn. split; [intros (? & [])|intros (? & [] & _)].
    - inversion P as [|? ? Pd P0]; subst. cbn [map In]. destruct X as (X1 & _). rewrite X1. split.
      + intros (b & [Y|Y]); [injection Y as Y1 Y2; exists d; split; [left; reflexivity|apply as_str_inj; [apply Pd|exact Pn|exact Y1]]|]. destruct (proj1 (IH P0) (ex_intro _ b Y)) as (d1 & Y1 & Y2). exists d1. auto.
      + intros (d1 & [Y|Y] & Y1); [subst d1; exists (pi_loop p); left; rewrite Y1; reflexivity|]. destruct (proj2 (IH P0) (ex_intro _ d1 (conj Y Y1))) as (b & B). exists b. right. exact B. }
  rewrite make_spec.
  2: { right. exists (as_str (cd_name d0)). split; [exact J0|]. destruct (proj2 (A (cd_name d0) (proj1 (proj1 (Forall_forall _ _) P d0 I0))) (ex_intro _ d0 (conj I0 eq_refl))) as (b & B). apply (in_map fst) in B. exact B. }
  unfold usable. rewrite <- (A name Pn). assert (X : forall e, ~ In (as_str name) (match e with None => [] | Some x => x end) <-> ~ (exists x, e = Some x /\ In (as_str name) x)).
  { intros [x|]; [|split; [intros _ (? & H & _); discriminate|intros _ []]]. split; [intros H (y & Y & Z0); injection Y as <-; contradiction|intros H N; apply H; eauto]. }
  rewrite X. split.
  - intros ([I [L|[L L2]]] & N & [V|V]); try (subst inc; destruct J0); repeat split; eauto.
  - intros ((b & B) & V & I & N). repeat split; auto. destruct b; auto.
Qed.
Print Assumptions C124_chosen_partial.
Example C124_chosen_example : let l := [mkCdev [101; 110; 48] None 6; mkCdev [108; 111] None 7; mkCdev [101; 110; 49] None 0] in
  exists ds, snd (pcap_devices false (Found l) None) = Ok ds /\ (exists d, In d l /\ In (as_str (cd_name d)) ["lo"; "en7"; "en1"]) /\ assemble ds (fun _ => true) (Some ["lo"; "en7"; "en1"]) (Some ["en1"]) = ["lo"].
Proof. eexists. split; [reflexivity|]. split; [|reflexivity]. exists (mkCdev [108; 111] None 7). split; [right; left; reflexivity|left; reflexivity]. Qed.
Lemma numv_fold : forall s acc, fold_left (fun n c => 10 * n + (c - 48)) s acc = numv acc s.
Proof. induction s as [|c s IH]; intros acc; cbn [fold_left numv]; [reflexivity|]. rewrite IH. f_equal. lia. Qed.
(** On Windows the devices are port0, port1, ... in the order of the system, with their names, descriptions (the new name when there is none) and states. *)
Theorem C124_windows_partial : forall l, Forall plain_dev l -> exists ds, snd (pcap_devices true (Found l) None) = Ok ds /\ List.length ds = List.length l /\
  forall i d p, nth_error l i = Some d -> nth_error ds i = Some p -> describes_win (Z.of_nat i) d p.
Proof.
  intros l H. exists (discover true 0 l). split; [reflexivity|]. assert (G : forall k, 0 <= k -> List.length (discover true k l) = List.length l /\ forall i d p, nth_error l i = Some d -> nth_error (discover true k l) i = Some p -> describes_win (k + Z.of_nat i) d p).
  { induction H as [|d l [H1 H2] H IH]; intros k K; cbn [discover List.length]; [split; [reflexivity|intros [|i] d p E; discriminate]|]. destruct (IH (k + 1) ltac:(lia)) as [L N]. split; [rewrite L; reflexivity|].
    intros [|i] d' p E F; cbn [nth_error] in *; [|replace (k + Z.of_nat (S i)) with (k + 1 + Z.of_nat i) by lia; exact (N i d' p E F)]. injection E as <-. injection F as <-.
    unfold describes_win. cbn [pi_name pi_internal pi_desc pi_loop pi_up pi_running]. rewrite (ignore_plain _ H1), flag0, flag1, flag2. split.
    - exists (dec k). split; [reflexivity|]. destruct (dec_spec k K) as (Dn & Dd & Dv). split; [exact Dn|]. split; [eapply Forall_impl; [|exact Dd]; unfold digit; intros; lia|]. rewrite numv_fold, Dv. symmetry. apply Z.add_0_r.
    - split; [reflexivity|]. split; [destruct (cd_desc d); [apply ignore_plain; exact H2|reflexivity]|]. tauto. }
  apply (G 0). lia.
Qed.
Print Assumptions C124_windows_partial.
Example C124_windows_example : let l := [mkCdev [101; 110; 48] None 6; mkCdev [108; 111] (Some [76]) 7] in Forall plain_dev l /\
  snd (pcap_devices true (Found l) None) = Ok [mkPi [112; 111; 114; 116; 48] [101; 110; 48] [112; 111; 114; 116; 48] false true true; mkPi [112; 111; 114; 116; 49] [108; 111] [76] true true true].
Proof. split; [repeat constructor; cbn; lia|reflexivity]. Qed.
