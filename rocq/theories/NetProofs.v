(** Proofs about the interface table and device selection. *)
From Verif Require Import BaseLemmas CodecLemmas EthAddrModel NetModel.
From Verif Require Export DictLemmas.

(** ** Invariant: the table maps each name to an interface of that name, once *)
Definition table_ok (d : devinfo) : Prop := NoDup (dkeys d) /\ forall k i, In (k, i) d -> if_name i = k.
Lemma table_set k i d : table_ok d -> if_name i = k -> table_ok (dset k i d).
Proof. intros [N H] E. split; [apply dset_NoDup; exact N|]. intros k2 i2 Hi.
  apply In_dget in Hi; [|apply dset_NoDup; exact N]. destruct (str_spec k2 k).
  - subst k2. rewrite dget_dset_same in Hi. congruence.
  - rewrite dget_dset_other in Hi by auto. apply dget_In in Hi. auto. Qed.
Lemma rem_name ip i j : if_remove ip i = Ok j -> if_name j = if_name i.
Proof. unfold if_remove. destruct (rem_ip _ _); intros H; [|discriminate]. apply ok_inj in H. subst. reflexivity. Qed.
Lemma on_iface_ok name f n : table_ok (nt_dev n) -> (forall i j, f i = Ok j -> if_name j = if_name i) ->
  table_ok (nt_dev (fst (on_iface name f n))).
Proof. intros T F. unfold on_iface. destruct (dget name (nt_dev n)) as [i|] eqn:E; [|exact T].
  destruct (f i) as [j|e] eqn:E2; [|exact T]. cbn [fst nt_dev]. apply table_set; [exact T|]. rewrite (F _ _ E2). apply T. apply dget_In. exact E. Qed.
Lemma assign_name a i : if_name (if_assign a i) = if_name i.
Proof. unfold if_assign. destruct (existsb _ _); reflexivity. Qed.
Lemma net_step_ok n o : table_ok (nt_dev n) -> table_ok (nt_dev (fst (net_step n o))).
Proof. intros T. destruct o; cbn [net_step].
  - unfold intf_up. destruct (din _ _); [exact T|]. cbn [fst notify nt_dev]. apply table_set; auto.
  - unfold intf_down. destruct (dget _ _); exact T.
  - exact T.
  - apply on_iface_ok; auto. intros i j H. apply ok_inj in H. subst. apply assign_name.
  - apply on_iface_ok; auto. intros i j H. apply (rem_name _ _ _ H).
  - apply on_iface_ok; auto. intros i j H. apply ok_inj in H. subst. reflexivity.
  - apply on_iface_ok; auto. intros i j H. apply ok_inj in H. subst. reflexivity. Qed.
Theorem net_run_ok os : forall n, table_ok (nt_dev n) -> table_ok (nt_dev (net_run n os)).
Proof. unfold net_run. induction os as [|o os IH]; intros n T; [exact T|]. cbn [fold_left]. apply IH, net_step_ok, T. Qed.
Lemma table_new : table_ok (nt_dev net_new).
Proof. split; [constructor|intros k i []]. Qed.

(** ** Lookups *)
Lemma first_such_spec f d : (exists n i, first_such f d = Ok (n, i) /\ In (n, i) d /\ f i = true) \/
  (first_such f d = Err EKey /\ forall n i, In (n, i) d -> f i = false).
Proof. induction d as [|[n i] r IH]; cbn [first_such]; [right; split; [reflexivity|intros n i []]|].
  destruct (f i) eqn:E; [left; exists n, i; cbn [In]; auto|]. destruct IH as [(m & j & H1 & H2 & H3)|[H1 H2]].
  - left. exists m, j. cbn [In]. auto.
  - right. split; [exact H1|]. intros m j [H|H]; [congruence|eauto]. Qed.
Lemma lookup_name d n : table_ok d ->
  (exists i, by_name n d = Ok i /\ In i (map snd d) /\ if_name i = n) \/ (by_name n d = Err EKey /\ forall i, In i (map snd d) -> if_name i <> n).
Proof. intros [N T]. unfold by_name. destruct (dget n d) as [i|] eqn:E.
  - left. exists i. apply dget_In in E. split; [reflexivity|]. split; [apply (in_map snd) in E; exact E|auto].
  - right. split; [reflexivity|]. apply dget_None in E. intros i H Hn. apply in_map_iff in H as ([k j] & H1 & H2). cbn in H1. subst j.
    apply E. rewrite <- Hn, (T _ _ H2). apply (in_map fst) in H2. exact H2. Qed.
Lemma has_ip_iff ip i : has_ip ip i = true <-> exists plen, In (ip, plen) (if_ips i).
Proof. unfold has_ip. rewrite existsb_exists. split.
  - intros ([a p] & H1 & H2). cbn [fst] in H2. apply bytes_eqb_eq in H2. subst. eauto.
  - intros (p & H). exists (ip, p). split; [exact H|]. apply bytes_eqb_refl. Qed.
Lemma lookup_ip d ip :
  (exists i, by_ip ip d = Ok i /\ In i (map snd d) /\ exists plen, In (ip, plen) (if_ips i)) \/
  (by_ip ip d = Err EKey /\ forall i plen, In i (map snd d) -> ~ In (ip, plen) (if_ips i)).
Proof. unfold by_ip. destruct (first_such_spec (has_ip ip) d) as [(n & i & H1 & H2 & H3)|[H1 H2]]; rewrite H1; cbn [bindr snd].
  - left. exists i. split; [reflexivity|]. split; [apply (in_map snd) in H2; exact H2|]. apply has_ip_iff. exact H3.
  - right. split; [reflexivity|]. intros i plen Hi Hp. apply in_map_iff in Hi as ([k j] & E & Hi). cbn in E. subst j.
    specialize (H2 _ _ Hi). assert (has_ip ip i = true) by (apply has_ip_iff; eauto). congruence. Qed.
Lemma lookup_mac d m a : eth_init m = Ok a ->
  (exists i, by_mac m d = Ok i /\ In i (map snd d) /\ if_mac i = a) \/ (by_mac m d = Err EKey /\ forall i, In i (map snd d) -> if_mac i <> a).
Proof. intros E. unfold by_mac. rewrite E. cbn [bindr].
  destruct (first_such_spec (fun i => bytes_eqb (if_mac i) a) d) as [(n & i & H1 & H2 & H3)|[H1 H2]]; rewrite H1; cbn [bindr snd].
  - left. exists i. split; [reflexivity|]. split; [apply (in_map snd) in H2; exact H2|]. apply bytes_eqb_eq. exact H3.
  - right. split; [reflexivity|]. intros i Hi Hp. apply in_map_iff in Hi as ([k j] & E2 & Hi). cbn in E2. subst j.
    specialize (H2 _ _ Hi). cbn in H2. rewrite Hp, bytes_eqb_refl in H2. discriminate. Qed.
Lemma lookup_num d n : table_ok d ->
  (exists i, by_num n d = Ok (if_name i) /\ In i (map snd d) /\ if_num i = n) \/ (by_num n d = Err EKey /\ forall i, In i (map snd d) -> if_num i <> n).
Proof. intros [N T]. unfold by_num. destruct (first_such_spec (fun i => if_num i =? n) d) as [(k & i & H1 & H2 & H3)|[H1 H2]]; rewrite H1; cbn [bindr fst].
  - left. exists i. rewrite (T _ _ H2). split; [reflexivity|]. split; [apply (in_map snd) in H2; exact H2|]. apply Z.eqb_eq. exact H3.
  - right. split; [reflexivity|]. intros i Hi Hp. apply in_map_iff in Hi as ([k j] & E2 & Hi). cbn in E2. subst j.
    specialize (H2 _ _ Hi). cbn in H2. lia. Qed.

(** ** Bringing interfaces up *)
Lemma up_new i n : (forall j, In j (map snd (nt_dev n)) -> if_name j <> if_name i) -> table_ok (nt_dev n) ->
  intf_up i n = (mkNet (nt_dev n ++ [(if_name i, i)]) (nt_cb n) (nt_log n ++ (if nt_cb n then [(if_name i, true)] else [])), None).
Proof. intros H [N T]. assert (Hn : ~ In (if_name i) (dkeys (nt_dev n))).
  { intros Hi. unfold dkeys in Hi. apply in_map_iff in Hi as ([k j] & E & Hi). cbn in E. subst k.
    apply (H j); [apply (in_map snd) in Hi; exact Hi|apply (T _ _ Hi)]. }
  unfold intf_up. destruct (din _ _) eqn:E; [apply din_iff in E; contradiction|]. unfold notify. rewrite dset_new by exact Hn.
  destruct (nt_cb n); [reflexivity|]. rewrite app_nil_r. reflexivity. Qed.
Lemma up_again i j n : table_ok (nt_dev n) -> In j (map snd (nt_dev n)) -> if_name j = if_name i -> intf_up i n = (n, Some EValue).
Proof. intros [N T] Hi E. apply in_map_iff in Hi as ([k j'] & E2 & Hi). cbn in E2. subst j'. pose proof (T _ _ Hi) as E3.
  unfold intf_up. replace (din (if_name i) (nt_dev n)) with true; [reflexivity|]. symmetry. apply din_iff. rewrite <- E, E3. apply (in_map fst) in Hi. exact Hi. Qed.

(** The callback is told about exactly the successful [up]s and the [down]s of known interfaces. *)
Fixpoint reports (n : net) (os : list net_op) : list (str * bool) :=
  match os with
  | [] => []
  | o :: os' =>
      (if nt_cb n then
        match o, snd (net_step n o) with
        | NUp i, None => [(if_name i, true)]
        | NDown k, _ => if existsb (fun i => str_eqb (if_name i) k) (map snd (nt_dev n)) then [(k, false)] else []
        | _, _ => []
        end else []) ++ reports (fst (net_step n o)) os'
  end.
Lemma on_iface_log name f n : nt_log (fst (on_iface name f n)) = nt_log n.
Proof. unfold on_iface. destruct (dget _ _); [destruct (f _)|]; reflexivity. Qed.
Lemma in_table d k : table_ok d -> existsb (fun i => str_eqb (if_name i) k) (map snd d) = din k d.
Proof. intros [N T]. apply eq_true_iff_eq. rewrite existsb_exists, din_iff. split.
  - intros (i & Hi & E). apply str_eqb_eq in E. subst. apply in_map_iff in Hi as ([k j] & E2 & Hi). cbn in E2. subst j.
    rewrite (T _ _ Hi). apply (in_map fst) in Hi. exact Hi.
  - intros Hi. unfold dkeys in Hi. apply in_map_iff in Hi as ([k' j] & E & Hi). cbn in E. subst k'. exists j. split; [apply (in_map snd) in Hi; exact Hi|].
    apply str_eqb_eq. apply (T _ _ Hi). Qed.
Theorem callback_log os : forall n, table_ok (nt_dev n) -> nt_log (net_run n os) = nt_log n ++ reports n os.
Proof. unfold net_run. induction os as [|o os IH]; intros n T; cbn [fold_left reports]; [rewrite app_nil_r; reflexivity|].
  rewrite IH by (apply net_step_ok; exact T). rewrite app_assoc. f_equal. destruct o; cbn [net_step].
  - unfold intf_up. destruct (din _ _); cbn [fst snd notify nt_log]; destruct (nt_cb n); rewrite ?app_nil_r; reflexivity.
  - cbn [fst snd]. rewrite in_table by exact T. unfold intf_down, din. destruct (dget name (nt_dev n)) as [i|] eqn:E; cbn [notify nt_log];
      destruct (nt_cb n); rewrite ?app_nil_r; auto. f_equal. f_equal. f_equal. apply dget_In in E. apply (proj2 T _ _ E).
  - cbn. destruct (nt_cb n); rewrite app_nil_r; reflexivity.
  - rewrite on_iface_log. destruct (nt_cb n); rewrite app_nil_r; reflexivity.
  - rewrite on_iface_log. destruct (nt_cb n); rewrite app_nil_r; reflexivity.
  - rewrite on_iface_log. destruct (nt_cb n); rewrite app_nil_r; reflexivity.
  - rewrite on_iface_log. destruct (nt_cb n); rewrite app_nil_r; reflexivity. Qed.

(** What the callback should hear: [on] tells whether one is installed, [known] the names brought up so far. *)
Fixpoint heard (on : bool) (known : list str) (os : list net_op) : list (str * bool) :=
  match os with
  | [] => []
  | NUp i :: t => if in_dec String.string_dec (if_name i) known then heard on known t else (if on then [(if_name i, true)] else []) ++ heard on (if_name i :: known) t
  | NDown k :: t => (if on then if in_dec String.string_dec k known then [(k, false)] else [] else []) ++ heard on known t
  | NCallback b :: t => heard b known t
  | _ :: t => heard on known t
  end.
Lemma on_iface_keeps name f n : nt_cb (fst (on_iface name f n)) = nt_cb n /\ dkeys (nt_dev (fst (on_iface name f n))) = dkeys (nt_dev n).
Proof.
  unfold on_iface. destruct (dget name (nt_dev n)) as [i|] eqn:E; [|auto]. destruct (f i); [|auto]. cbn [fst nt_cb nt_dev]. split; [reflexivity|]. apply dkeys_dset_in. apply din_iff. unfold din. rewrite E. reflexivity.
Qed.
Lemma reports_heard os : forall n known, table_ok (nt_dev n) -> (forall k, In k known <-> In k (dkeys (nt_dev n))) -> reports n os = heard (nt_cb n) known os.
Proof.
  induction os as [|o os IH]; intros n known T K; [reflexivity|]. cbn [reports heard]. pose proof (net_step_ok n o T) as T2.
  destruct o as [i|k|b|nm a|nm ip|nm m|nm z]; cbn [net_step] in *.
  - unfold intf_up in *. destruct (in_dec String.string_dec (if_name i) known) as [I|I].
    + apply K, din_iff in I. rewrite I in *. cbn [fst snd]. rewrite (IH n known T K). destruct (nt_cb n); reflexivity.
    + assert (D : din (if_name i) (nt_dev n) = false) by (destruct (din (if_name i) (nt_dev n)) eqn:D; [|reflexivity]; apply din_iff, K in D; contradiction).
      rewrite D in *. cbn [fst snd] in *. f_equal. rewrite (IH _ (if_name i :: known)); [reflexivity|exact T2|]. intros k. cbn [notify nt_dev In]. rewrite dkeys_dset_new by (intros X; apply I, K; exact X). rewrite in_app_iff, K. cbn [In]. tauto.
  - cbn [fst snd] in *. f_equal.
    + destruct (nt_cb n); [|reflexivity]. rewrite in_table by exact T. destruct (in_dec String.string_dec k known) as [I|I].
      * apply K, din_iff in I. rewrite I. reflexivity.
      * destruct (din k (nt_dev n)) eqn:D; [|reflexivity]. apply din_iff, K in D. contradiction.
    + unfold intf_down in *. destruct (dget k (nt_dev n)); rewrite (IH _ known T2) by exact K; reflexivity.
  - cbn [fst snd] in *. rewrite (IH _ known T2) by exact K. destruct (nt_cb n); reflexivity.
  - destruct (on_iface_keeps nm (fun i => Ok (if_assign a i)) n) as [C D]. rewrite (IH _ known T2), C by (intros x; rewrite D; apply K). destruct (nt_cb n); reflexivity.
  - destruct (on_iface_keeps nm (if_remove ip) n) as [C D]. rewrite (IH _ known T2), C by (intros x; rewrite D; apply K). destruct (nt_cb n); reflexivity.
  - destruct (on_iface_keeps nm (fun i => Ok (if_set_mac m i)) n) as [C D]. rewrite (IH _ known T2), C by (intros x; rewrite D; apply K). destruct (nt_cb n); reflexivity.
  - destruct (on_iface_keeps nm (fun i => Ok (if_set_num z i)) n) as [C D]. rewrite (IH _ known T2), C by (intros x; rewrite D; apply K). destruct (nt_cb n); reflexivity.
Qed.

(** ** Addresses of an interface *)
Lemma ipif_eqb_eq a b : ipif_eqb a b = true <-> a = b.
Proof. destruct a as [a p], b as [b q]. unfold ipif_eqb. cbn [fst snd]. rewrite andb_true_iff, bytes_eqb_eq, Z.eqb_eq. split; [intros [-> ->]; reflexivity|].
  intros H. injection H as -> ->. auto. Qed.
Lemma assign_spec a i : forall x, In x (if_ips (if_assign a i)) <-> x = a \/ In x (if_ips i).
Proof. intros x. unfold if_assign. destruct (existsb (ipif_eqb a) (if_ips i)) eqn:E.
  - apply existsb_exists in E as (y & H1 & H2). apply ipif_eqb_eq in H2. subst y. split; [auto|]. intros [->|H]; auto.
  - cbn [if_ips]. rewrite in_app_iff. cbn [In]. intuition. Qed.
Lemma assign_NoDup a i : NoDup (if_ips i) -> NoDup (if_ips (if_assign a i)).
Proof. intros N. unfold if_assign. destruct (existsb (ipif_eqb a) (if_ips i)) eqn:E; [exact N|]. cbn [if_ips].
  apply NoDup_Add with (a := a) (l := if_ips i); [rewrite <- (app_nil_r (if_ips i)) at 1; apply Add_app|]. split; [exact N|].
  intros H. enough (existsb (ipif_eqb a) (if_ips i) = true) by congruence. apply existsb_exists. exists a. split; [exact H|apply ipif_eqb_eq; reflexivity]. Qed.
Lemma rem_ip_spec ip l : (exists a p b, l = a ++ (ip, p) :: b /\ rem_ip ip l = Some (a ++ b)) \/ (rem_ip ip l = None /\ forall p, ~ In (ip, p) l).
Proof. induction l as [|[x p] r IH]; cbn [rem_ip fst]; [right; split; [reflexivity|intros p []]|].
  destruct (bytes_eqb x ip) eqn:E.
  - apply bytes_eqb_eq in E. subst. left. exists [], p, r. split; reflexivity.
  - assert (x <> ip) by (intros ->; rewrite bytes_eqb_refl in E; discriminate). destruct IH as [(a & q & b & -> & ->)|[-> H1]].
    + left. exists ((x, p) :: a), q, b. split; reflexivity.
    + right. split; [reflexivity|]. intros q [H2|H2]; [congruence|apply (H1 q H2)]. Qed.

(** ** Interface numbers of a scenario *)
Definition added (l : list (str * option ethaddr * list ipif)) : devinfo :=
  fold_left (fun d x => add_interface (fst (fst x)) (snd (fst x)) (snd x) None d) l [].
Lemma fold_assign_fields ips : forall i, if_name (fold_left (fun i a => if_assign a i) ips i) = if_name i /\
  if_num (fold_left (fun i a => if_assign a i) ips i) = if_num i.
Proof. induction ips as [|a ips IH]; intros i; [auto|]. cbn [fold_left]. destruct (IH (if_assign a i)) as [-> ->]. unfold if_assign. destruct (existsb _ _); auto. Qed.
Lemma added_numbers l : NoDup (map (fun x => fst (fst x)) l) -> dkeys (added l) = map (fun x => fst (fst x)) l /\
  map (fun x => if_num (snd x)) (added l) = map Z.of_nat (seq 0 (List.length l)).
Proof. induction l as [|x l IH] using rev_ind; [auto|]. intros N. rewrite map_app in N. cbn [map] in N.
  pose proof (NoDup_remove_1 _ _ _ N) as N1. pose proof (NoDup_remove_2 _ _ _ N) as N2. rewrite app_nil_r in N1, N2. destruct (IH N1) as [H1 H2].
  unfold added. rewrite fold_left_app. fold (added l). cbn [fold_left]. set (d := added l) in *. unfold add_interface. rewrite dset_new by (rewrite H1; exact N2).
  unfold dkeys. rewrite !map_app. fold (dkeys d). rewrite H1, H2. cbn [map fst snd]. split; [reflexivity|].
  rewrite app_length. cbn [List.length]. rewrite Nat.add_1_r, seq_S, map_app. cbn [map Nat.add]. do 2 f_equal.
  rewrite (proj2 (fold_assign_fields _ _)). cbn [if_num]. unfold zlen. f_equal. rewrite <- (map_length (fun x => if_num (snd x)) d), H2, map_length, seq_length. reflexivity. Qed.

(** ** Device selection *)
Lemma dedup_In x l : In x (dedup l) <-> In x l.
Proof. induction l as [|y r IH]; [tauto|]. cbn [dedup]. destruct (smem y r) eqn:E.
  - rewrite IH. cbn [In]. apply smem_In in E. split; [auto|]. intros [->|H]; auto.
  - cbn [In]. rewrite IH. tauto. Qed.
Lemma dedup_NoDup l : NoDup (dedup l).
Proof. induction l as [|y r IH]; [constructor|]. cbn [dedup]. destruct (smem y r) eqn:E; [exact IH|]. constructor; [|exact IH].
  rewrite dedup_In. intros H. apply smem_In in H. congruence. Qed.
Lemma make_NoDup pcap index inc exc : NoDup (make_device_list pcap index inc exc).
Proof. unfold make_device_list. destruct (filter _ inc); repeat apply NoDup_filter; apply dedup_NoDup. Qed.
(** A device that can be used: found by pcap with an interface index; a loopback device only when asked for. *)
Definition usable (pcap : list (str * bool)) (index : str -> bool) (inc : list str) (x : str) : Prop :=
  index x = true /\ (In (x, false) pcap \/ (In (x, true) pcap /\ In x inc)).
Lemma devs_In pcap inc x :
  In x (dedup (map fst (filter (fun d => negb (snd d) || smem (fst d) inc) pcap))) <-> In (x, false) pcap \/ (In (x, true) pcap /\ In x inc).
Proof. rewrite dedup_In, in_map_iff. split.
  - intros ([n b] & E & H). cbn in E. subst n. apply filter_In in H as [H1 H2]. cbn [fst snd] in H2. destruct b; [|auto].
    cbn [negb orb] in H2. apply smem_In in H2. auto.
  - intros [H|[H1 H2]].
    + exists (x, false). split; [reflexivity|]. apply filter_In. split; [exact H|reflexivity].
    + exists (x, true). split; [reflexivity|]. apply filter_In. split; [exact H1|]. apply smem_In in H2. cbn [fst snd negb orb]. exact H2. Qed.
Lemma make_spec pcap index inc exc x : (inc = [] \/ exists y, In y inc /\ In y (map fst pcap)) ->
  (In x (make_device_list pcap index inc exc) <-> usable pcap index inc x /\ ~ In x exc /\ (inc = [] \/ In x inc)).
Proof. intros Hi. unfold make_device_list. set (devs := dedup _).
  assert (D : forall y, In y devs <-> In (y, false) pcap \/ (In (y, true) pcap /\ In y inc)) by (intros y; apply devs_In).
  assert (B : In x (filter (fun x => negb (smem x exc)) (filter index devs)) <-> usable pcap index inc x /\ ~ In x exc).
  { rewrite !filter_In, D. unfold usable. rewrite negb_true_iff. assert (smem x exc = false <-> ~ In x exc).
    { rewrite <- smem_In. destruct (smem x exc); split; congruence. } tauto. }
  destruct (filter (fun x => smem x devs) inc) as [|i0 r] eqn:E.
  - rewrite B. destruct Hi as [->|(y & Y1 & Y2)]; [tauto|]. exfalso.
    assert (In y (filter (fun x => smem x devs) inc)).
    { apply filter_In. split; [exact Y1|]. apply smem_In, D. apply in_map_iff in Y2 as ([n b] & E2 & Y2). cbn in E2. subst n. destruct b; auto. }
    rewrite E in H. destruct H.
  - rewrite <- E. rewrite filter_In, B, smem_In, filter_In, smem_In, D. unfold usable. split; [tauto|]. intros (H1 & H2 & [->|H3]); [discriminate E|]. tauto. Qed.
