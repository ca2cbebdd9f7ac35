(** Proofs about sending on live devices. *)
From Verif Require Import BaseLemmas CodecLemmas EthAddrModel Ipv4Model Ipv4Proofs TransportModel Ipv6Model PacketModel PacketSpec PacketProofs SendModel SendSpec NetProofs.
#[local] Open Scope list_scope.
#[local] Open Scope Z_scope.

Lemma existsb_mem s l : existsb (str_eqb s) l = true <-> In s l.
Proof.
  rewrite existsb_exists. split.
  - intros (x & H & E). apply str_eqb_eq in E. subst. exact H.
  - intros H. exists s. split; [exact H|apply str_eqb_refl].
Qed.
Lemma made_pcaps d s i t : dget s d = Some (i, t) -> existsb (str_eqb s) (ln_pcaps (make_pcaps d)) = true.
Proof. intros H. apply existsb_mem. cbn [make_pcaps ln_pcaps]. apply dget_In in H. apply (in_map fst) in H. exact H. Qed.
Lemma made_local d s i t : dget s d = Some (i, t) -> is_loop t = true -> existsb (str_eqb s) (ln_local (make_pcaps d)) = true.
Proof. intros H L. apply existsb_mem. cbn [make_pcaps ln_local]. apply dget_In in H. apply in_map_iff. exists (s, (i, t)). split; [reflexivity|]. apply filter_In. split; [exact H|exact L]. Qed.
Lemma not_made d s : dget s d = None -> existsb (str_eqb s) (ln_pcaps (make_pcaps d)) = false /\ existsb (str_eqb s) (ln_local (make_pcaps d)) = false.
Proof.
  intros H. apply dget_None in H. unfold dkeys in H. split; (apply not_true_iff_false; rewrite existsb_mem; intros K; apply H); cbn [make_pcaps ln_pcaps ln_local] in K; [exact K|].
  apply in_map_iff in K as (x & <- & K). apply filter_In in K as [K _]. apply in_map. exact K.
Qed.
Definition ifaces (d : dict port) : dict iface := map (fun x => (fst x, fst (snd x))) d.
Lemma num_found d k s : table d -> by_num k (ifaces d) = Ok s -> exists i t, dget s d = Some (i, t) /\ if_num i = k.
Proof.
  intros [N T] H. unfold by_num in H. destruct (first_such_spec (fun i => if_num i =? k) (ifaces d)) as [(n & i & E & I & F)|(E & _)]; rewrite E in H; cbn [bindr] in H; [|discriminate].
  injection H as <-. apply in_map_iff in I as ([n' [i' t]] & E2 & I). cbn [fst snd] in E2. injection E2 as -> ->. exists i, t. split; [apply In_dget; assumption|lia].
Qed.
Lemma num_none d k : by_num k (ifaces d) = Err EKey \/ exists s, by_num k (ifaces d) = Ok s.
Proof.
  unfold by_num. destruct (first_such_spec (fun i => if_num i =? k) (ifaces d)) as [(n & i & E & I & F)|(E & _)]; rewrite E; cbn [bindr]; [right; eauto|left; reflexivity].
Qed.
(** Which device a known argument is sent to. *)
Lemma leads_send e d a s t p : table d -> leads d a s t -> live_send e (make_pcaps d) a (PPkt p) = send_on e (make_pcaps d) s t p /\ exists i, dget s d = Some (i, t).
Proof.
  intros T L. unfold live_send. fold (ifaces (ln_dev (make_pcaps d))). change (ln_dev (make_pcaps d)) with d. destruct L as [s i t H|k s i t H N U|i t H].
  - rewrite H. eauto.
  - destruct (num_none d k) as [E|[s' E]].
    + exfalso. unfold by_num in E. destruct (first_such_spec (fun i => if_num i =? k) (ifaces d)) as [(n & i0 & E0 & _)|(_ & F)]; [rewrite E0 in E; discriminate|].
      apply dget_In in H. apply (in_map (fun x : str * port => (fst x, fst (snd x)))) in H. specialize (F _ _ H). cbn in F. lia.
    + rewrite E. destruct (num_found d k s' T E) as (i' & t' & H' & N'). rewrite <- (U _ _ _ H' N') in H. rewrite <- (U _ _ _ H' N'). rewrite H. eauto.
  - eauto.
Qed.
Lemma wired_send e d s i t p : dget s d = Some (i, t) -> is_loop t = false -> send_on e (make_pcaps d) s t p =
  match pkt_to_bytes p with Err x => (p, [], Err x) | Ok (p', b) => (p', [Wire s b], if e_rv e =? 0 then Ok tt else Err EExc) end.
Proof. intros H L. unfold send_on. rewrite L, (made_pcaps d s i t H). reflexivity. Qed.
Lemma loop_send e d s i t p : dget s d = Some (i, t) -> is_loop t = true -> send_on e (make_pcaps d) s t p = raw_send e s p.
Proof. intros H L. unfold send_on. rewrite L, (made_local d s i t H L). reflexivity. Qed.

(** ** The raw socket *)
Lemma inst_link f : isinst f CNull || isinst f CEth = match f with HEth _ | HNull _ => true | _ => false end.
Proof. destruct f; reflexivity. Qed.
Lemma inst_ip f : isinst f CIp4 || isinst f CIp6 = match f with HIp4 _ | HIp6 _ => true | _ => false end.
Proof. destruct f; reflexivity. Qed.
Lemma raw_ip e s p f t : above_link p = f :: t -> isinst f CIp4 || isinst f CIp6 = true -> raw_send e s p =
  match pkt_to_bytes (f :: t) with
  | Err x => (f :: t, [], Err x)
  | Ok (p', []) => (p', [], Err EIndex)
  | Ok (p', (v :: _) as raw) =>
      if Z.shiftr v 4 =? 4 then
        match e_sent e with
        | None => (p', [], Err EExc)
        | Some n => (p', [Raw s (if e_mac e then swap_bytes raw else raw) (dst_of f) (udp_port p')], if zlen (if e_mac e then swap_bytes raw else raw) =? n then Ok tt else Err EExc)
        end
      else (p', [], Err ENotImpl)
  end.
Proof.
  intros A F. destruct p as [|h r]; [discriminate|]. cbn [raw_send]. rewrite inst_link. rewrite inst_ip in F.
  assert (E : (if match h with HEth _ | HNull _ => true | _ => false end then r else h :: r) = f :: t) by (destruct h; exact A). rewrite E. rewrite inst_ip, F. cbn [negb].
  destruct (pkt_to_bytes (f :: t)) as [[p' [|v raw]]|x]; reflexivity.
Qed.
Lemma raw_not e s p : match above_link p with (HIp4 _ | HIp6 _) :: _ => False | _ => True end -> raw_send e s p = (above_link p, [], Err EExc).
Proof.
  intros A. destruct p as [|h r]; [reflexivity|]. cbn [raw_send]. rewrite inst_link.
  assert (E : (if match h with HEth _ | HNull _ => true | _ => false end then r else h :: r) = above_link (h :: r)) by (destruct h; reflexivity). rewrite E.
  destruct (above_link (h :: r)) as [|f t]; [reflexivity|]. rewrite inst_ip. destruct f; try contradiction; reflexivity.
Qed.
Lemma ser_head pre h t p' b : ser pre (h :: t) = Ok (p', b) -> exists h' t' raw hb, p' = hdr_after h' :: t' /\ pre_ser raw (pre ++ h :: t') h = Ok h' /\ hdr_bytes h' = Ok hb /\ b = hb ++ raw.
Proof.
  cbn [ser]. destruct (ser (pre ++ [h]) t) as [[t' raw]|x]; cbn [bindr]; [|discriminate]. destruct (pre_ser raw (pre ++ h :: t') h) as [h'|x] eqn:E1; cbn [bindr]; [|discriminate].
  destruct (hdr_bytes h') as [hb|x] eqn:E2; cbn [bindr]; [|discriminate]. intros H. injection H as <- <-. exists h', t', raw, hb. auto.
Qed.
Lemma pack_first z fs vs b : pack (fB :: fs) (VI z :: vs) = Ok b -> exists r, b = z :: r /\ 0 <= z < 256.
Proof.
  cbn [pack]. change (256 ^ Z.of_nat 1) with 256. destruct (Z.leb_spec 0 z); cbn [andb]; [|discriminate]. destruct (Z.ltb_spec z 256); [|discriminate].
  destruct (pack fs vs) as [bs|x]; cbn [bindr]; [|discriminate]. intros E. injection E as <-. exists bs. split; [|lia]. cbn [be app]. f_equal; try reflexivity. change (256 ^ Z.of_nat 0) with 1. rewrite ?Z.div_1_r. apply Z.mod_small. lia.
Qed.
Lemma ip_first x b ob : ip_to_bytes x = Ok b -> opts_to_bytes (ip_opts x) = Ok ob -> zlen ob <= 40 -> exists v r, b = v :: r /\ Z.shiftr v 4 = 4.
Proof.
  unfold ip_to_bytes, ip_size. intros H O L. rewrite O in H. cbn [bindr] in H. destruct (ip_checksum x) as [c|e]; cbn [bindr] in H; [|discriminate].
  destruct (pack ip_fmt _) as [h|e] eqn:P; cbn [bindr] in H; [|discriminate]. injection H as <-. unfold ip_fmt in P. apply pack_first in P as (r & -> & _).
  eexists. exists (r ++ ob). split; [reflexivity|]. assert (0 <= zlen ob) by (unfold zlen; lia). assert (B : 0 <= (20 + zlen ob) / 4 < 16) by (split; [apply Z.div_pos; lia|apply Z.div_lt_upper_bound; lia]).
  rewrite (lor64 _ B). apply shiftr4. exact B.
Qed.
Lemma ip6_first x b : ip6_to_bytes x = Ok b -> exists v r, b = v :: r /\ Z.shiftr v 4 <> 4.
Proof.
  unfold ip6_to_bytes, ip6_fmt. intros P. apply pack_first in P as (r & -> & B). eexists _, r. split; [reflexivity|]. intros E.
  apply (f_equal (fun z => Z.testbit z 1)) in E. rewrite Z.shiftr_spec in E by lia. rewrite Z.lor_spec in E. change (Z.testbit (Z.shiftl 6 4) (1 + 4)) with true in E. discriminate.
Qed.
Lemma swap_host b : (8 <= List.length b)%nat -> host_order b (swap_bytes b).
Proof.
  intros L. do 8 (destruct b as [|? b]; [cbn [List.length] in L; lia|]). split; [reflexivity|]. intros i. do 8 (destruct i as [|i]; [reflexivity|]). reflexivity.
Qed.
Lemma swap_length b : (8 <= List.length b)%nat -> List.length (swap_bytes b) = List.length b.
Proof. intros L. apply (swap_host b L). Qed.
Lemma py_app l h r : py_get (l ++ h :: r) (zlen l) = Ok h.
Proof. unfold py_get, nth_res. assert (0 <= zlen l) by (unfold zlen; lia). destruct (Z.ltb_spec (zlen l) 0); [lia|]. unfold zlen. rewrite Nat2Z.id, nth_error_app2, Nat.sub_diag by lia. reflexivity. Qed.
Lemma index_first : forall m l u r k, (forall u', ~ In (HUdp u') m) -> (List.length m < k)%nat -> index_loop k (l ++ m ++ HUdp u :: r) CUdp (zlen l) = Ok (zlen (l ++ m)).
Proof.
  induction m as [|h m IH]; intros l u r k N K; (destruct k as [|k]; [cbn [List.length] in K; lia|]); cbn [index_loop app].
  - rewrite py_app. cbn [bindr]. rewrite app_nil_r. reflexivity.
  - rewrite py_app. cbn [bindr]. assert (C : isinst h CUdp = false) by (destruct h; try reflexivity; exfalso; eapply N; left; reflexivity). rewrite C.
    specialize (IH (l ++ [h]) u r k). rewrite <- !app_assoc in IH. cbn [app] in IH. replace (zlen l + 1) with (zlen (l ++ [h])) by (unfold zlen; rewrite app_length; cbn [List.length]; lia).
    apply IH; [intros u' I; exact (N u' (or_intror I))|cbn [List.length] in K; lia].
Qed.
Lemma has_udp p : (exists l u r, p = l ++ HUdp u :: r /\ (forall u', ~ In (HUdp u') l)) \/ (forall u, ~ In (HUdp u) p).
Proof.
  induction p as [|h p IH]; [right; intros u []|]. assert (D : (exists u, h = HUdp u) \/ forall u, h <> HUdp u) by (destruct h; try (right; discriminate); left; eauto).
  destruct D as [[u ->]|D]; [left; exists [], u, p; split; [reflexivity|intros u' []]|]. destruct IH as [(l & u & r & -> & N)|N].
  - left. exists (h :: l), u, r. split; [reflexivity|]. intros u' [E|I]; [exact (D u' E)|exact (N u' I)].
  - right. intros u [E|I]; [exact (D u E)|exact (N u I)].
Qed.
Lemma get_header_udp l u r : (forall u', ~ In (HUdp u') l) -> pkt_get_header (l ++ HUdp u :: r) CUdp = Some (HUdp u).
Proof.
  induction l as [|h l IH]; intros N; [reflexivity|]. cbn [app pkt_get_header]. assert (C : isinst h CUdp = false) by (destruct h; try reflexivity; exfalso; eapply N; left; reflexivity). rewrite C.
  apply IH. intros u' I. exact (N u' (or_intror I)).
Qed.
Lemma get_header_none p : (forall u, ~ In (HUdp u) p) -> pkt_get_header p CUdp = None.
Proof.
  induction p as [|h p IH]; intros N; [reflexivity|]. cbn [pkt_get_header]. assert (C : isinst h CUdp = false) by (destruct h; try reflexivity; exfalso; eapply N; left; reflexivity). rewrite C.
  apply IH. intros u I. exact (N u (or_intror I)).
Qed.
Lemma udp_port_spec p : first_udp_port p (udp_port p).
Proof.
  unfold udp_port, pkt_has. destruct (has_udp p) as [(l & u & r & -> & N)|N].
  - left. exists l, u, r. split; [reflexivity|]. split; [exact N|]. rewrite (get_header_udp l u r N). unfold pkt_get_cls, pkt_index.
    rewrite Z.sub_0_r. rewrite (index_first l [] u r _ N) by (unfold zlen; rewrite Nat2Z.id, app_length; cbn [List.length]; lia). cbn [bindr app].
    assert (0 <= zlen l) by (unfold zlen; lia). destruct (Z.eqb_spec (zlen l) (-1)); [lia|]. rewrite py_app. reflexivity.
  - right. split; [exact N|]. rewrite (get_header_none p N). reflexivity.
Qed.
Lemma loop_ip4 e s p x t ob q b : above_link p = HIp4 x :: t -> opts_to_bytes (ip_opts x) = Ok ob -> zlen ob <= 40 -> pkt_to_bytes (HIp4 x :: t) = Ok (q, b) ->
  (20 <= List.length b)%nat /\ raw_send e s p = (q, match e_sent e with None => [] | Some _ => [Raw s (if e_mac e then swap_bytes b else b) (ip_dst x) (udp_port q)] end,
    match e_sent e with None => Err EExc | Some n => if zlen b =? n then Ok tt else Err EExc end).
Proof.
  intros A O L P. rewrite (raw_ip e s p (HIp4 x) t A eq_refl), P. unfold pkt_to_bytes in P. apply ser_head in P as (h' & t' & raw & hb & -> & P1 & P2 & ->).
  cbn [pre_ser] in P1. unfold ip_pre_serialize, ip_size in P1. rewrite O in P1. cbn [bindr] in P1. injection P1 as <-. cbn [hdr_bytes] in P2.
  destruct (ip_first _ _ ob P2 O L) as (v & r & -> & V). apply ip_to_bytes_len in P2. unfold ip_size in P2. cbn [ip_with_totlen ip_opts] in P2. rewrite O in P2. cbn [bindr] in P2.
  assert (LB : (20 <= List.length ((v :: r) ++ raw))%nat). { apply ok_inj in P2. pose proof (zlen_nonneg ob). unfold zlen in *. rewrite app_length. lia. }
  split; [exact LB|]. cbn [app] in *. rewrite V. change (4 =? 4) with true. cbn iota. cbn [dst_of ip_with_totlen ip_dst].
  assert (Z : zlen (if e_mac e then swap_bytes (v :: r ++ raw) else v :: r ++ raw) = zlen (v :: r ++ raw)) by (destruct (e_mac e); [unfold zlen; rewrite swap_length; [reflexivity|cbn [app] in LB; lia]|reflexivity]).
  rewrite Z. destruct (e_sent e); reflexivity.
Qed.
Lemma loop_ip6 e s p x t q b : above_link p = HIp6 x :: t -> pkt_to_bytes (HIp6 x :: t) = Ok (q, b) -> raw_send e s p = (q, [], Err ENotImpl).
Proof.
  intros A P. rewrite (raw_ip e s p (HIp6 x) t A eq_refl), P. unfold pkt_to_bytes in P. apply ser_head in P as (h' & t' & raw & hb & -> & P1 & P2 & ->).
  cbn [pre_ser] in P1. unfold ip6_pre_serialize in P1. cbn [bindr] in P1. injection P1 as <-. cbn [hdr_bytes] in P2. destruct (ip6_first _ _ P2) as (v & r & -> & V). cbn [app].
  destruct (Z.eqb_spec (Z.shiftr v 4) 4); [contradiction|reflexivity].
Qed.

(** ** Collecting the devices *)
Lemma addr_loop_spec : forall l ips mac r, addr_loop l ips mac = Ok r ->
  (forall a, In a (fst r) <-> In a ips \/ (exists m, In (AInet (fst a) (Some m)) l /\ snd a = 32) \/ (exists sc m, In (AInet6 (fst a) sc (Some m)) l /\ snd a = 128)) /\
  ((exists l1 l2, l = l1 ++ ALink (snd r) :: l2 /\ forall m', ~ In (ALink m') l2) \/ (forall m', ~ In (ALink m') l) /\ snd r = mac) /\ Forall has_mask l.
Proof.
  induction l as [|x l IH]; intros ips mac r H; cbn [addr_loop] in H.
  - injection H as <-. cbn [fst snd]. split; [|split; [right; split; [intros m' []|reflexivity]|constructor]]. intros a. split; [auto|]. intros [K|[(m & [] & _)|(sc & m & [] & _)]]; exact K.
  - assert (G : forall ips' mac', addr_loop l ips' mac' = Ok r -> (forall a, In a ips' <-> In a ips \/ (exists m, AInet (fst a) (Some m) = x /\ snd a = 32) \/ (exists sc m, AInet6 (fst a) sc (Some m) = x /\ snd a = 128)) ->
      (forall m, x = ALink m -> mac' = m) -> ((forall m, x <> ALink m) -> mac' = mac) -> has_mask x ->
      (forall a, In a (fst r) <-> In a ips \/ (exists m, In (AInet (fst a) (Some m)) (x :: l) /\ snd a = 32) \/ (exists sc m, In (AInet6 (fst a) sc (Some m)) (x :: l) /\ snd a = 128)) /\
      ((exists l1 l2, x :: l = l1 ++ ALink (snd r) :: l2 /\ forall m', ~ In (ALink m') l2) \/ (forall m', ~ In (ALink m') (x :: l)) /\ snd r = mac) /\ Forall has_mask (x :: l)).
    { intros ips' mac' H' I1 M1 M2 Hm. destruct (IH _ _ _ H') as (A & B & C). split; [|split; [|constructor; assumption]].
      - intros a. rewrite A, I1. cbn [In]. split.
        + intros [[K|[(m & K1 & K2)|(sc & m & K1 & K2)]]|[(m & K1 & K2)|(sc & m & K1 & K2)]]; auto; right; [left; exists m|right; exists sc, m|left; exists m|right; exists sc, m]; split; auto.
        + intros [K|[(m & [K1|K1] & K2)|(sc & m & [K1|K1] & K2)]]; auto; [left; right; left; exists m|right; left; exists m|left; right; right; exists sc, m|right; right; exists sc, m]; split; auto.
      - destruct B as [(l1 & l2 & -> & B)|[B1 B2]]; [left; exists (x :: l1), l2; split; [reflexivity|exact B]|].
        assert (D : (exists m, x = ALink m) \/ forall m, x <> ALink m) by (destruct x; try (right; discriminate); left; eauto). destruct D as [[m ->]|D].
        + left. exists [], l. split; [|exact B1]. rewrite B2, (M1 m eq_refl). reflexivity.
        + right. split; [intros m' [E|I]; [exact (D m' E)|exact (B1 m' I)]|]. rewrite B2. apply M2. exact D. }
    assert (S : forall a ips, forall y, In y (add_once a ips) <-> In y ips \/ y = a).
    { intros a ips0 y. unfold add_once. destruct (existsb (ipif_eqb a) ips0) eqn:E.
      - split; [auto|]. intros [K| ->]; [exact K|]. apply existsb_exists in E as (z & Iz & Ez). apply ipif_eqb_eq in Ez. subst. exact Iz.
      - rewrite in_app_iff. cbn [In]. split; [intros [K|[K|[]]]; auto|intros [K|K]; auto]. }
    destruct x as [a [m|]|a sc [m|]|m|]; try discriminate; apply G in H; auto; try (intros; discriminate); try (intros ? K; injection K as ->; reflexivity); try (intros K; exfalso; exact (K _ eq_refl)); try exact I.
    + intros [y n]. rewrite S. cbn [fst snd]. split.
      * intros [K|K]; [auto|]. injection K as -> ->. right. left. exists m. auto.
      * intros [K|[(m' & K1 & K2)|(sc & m' & K1 & K2)]]; [auto| |discriminate]. injection K1 as -> _. subst n. auto.
    + intros [y n]. rewrite S. cbn [fst snd]. split.
      * intros [K|K]; [auto|]. injection K as -> ->. right. right. exists sc, m. auto.
      * intros [K|[(m' & K1 & K2)|(sc' & m' & K1 & K2)]]; [auto|discriminate|]. injection K1 as -> _ _. subst n. auto.
    + intros y. split; [auto|]. intros [K|[(m' & K1 & _)|(sc' & m' & K1 & _)]]; [exact K|discriminate|discriminate].
    + intros y. split; [auto|]. intros [K|[(m' & K1 & _)|(sc' & m' & K1 & _)]]; [exact K|discriminate|discriminate].
Qed.
Lemma addr_loop_total : forall l ips mac, Forall has_mask l -> exists r, addr_loop l ips mac = Ok r.
Proof. induction l as [|x l IH]; intros ips mac F; cbn [addr_loop]; [eauto|]. inversion F as [|? ? M F2]; subst. destruct x as [a [m|]|a sc [m|]|m|]; try contradiction; apply IH; exact F2. Qed.
Lemma assign_all ips : forall i, (forall a, In a (if_ips (fold_left (fun i a => if_assign a i) ips i)) <-> In a (if_ips i) \/ In a ips) /\ (NoDup (if_ips i) -> NoDup (if_ips (fold_left (fun i a => if_assign a i) ips i))) /\
  if_name (fold_left (fun i a => if_assign a i) ips i) = if_name i /\ if_num (fold_left (fun i a => if_assign a i) ips i) = if_num i /\ if_mac (fold_left (fun i a => if_assign a i) ips i) = if_mac i.
Proof.
  induction ips as [|x ips IH]; intros i; cbn [fold_left]; [split; [intros a; split; [auto|intros [K|[]]; exact K]|auto]|].
  destruct (IH (if_assign x i)) as (A & B & C & D & E). split; [|split; [|split; [|split]]].
  - intros a. rewrite A, assign_spec. cbn [In]. split; [intros [[K|K]|K]; auto|intros [K|[K|K]]; auto].
  - intros N. apply B, assign_NoDup, N.
  - rewrite C. apply assign_name.
  - rewrite D. unfold if_assign. destruct (existsb _ _); reflexivity.
  - rewrite E. unfold if_assign. destruct (existsb _ _); reflexivity.
Qed.
(** What one device looks like. *)
Definition shown (types : dict iftype) (index : str -> option Z) (name : str) (l : list psaddr) (p : port) : Prop :=
  if_name (fst p) = name /\ index name = Some (if_num (fst p)) /\ last_mac l (if_mac (fst p)) /\ dget name types = Some (snd p) /\ NoDup (if_ips (fst p)) /\
  (forall a, In a (if_ips (fst p)) <-> (exists m, In (AInet (fst a) (Some m)) l /\ snd a = 32) \/ (exists sc m, In (AInet6 (fst a) sc (Some m)) l /\ snd a = 128)).
Lemma one_dev_spec types index name l p : one_dev types index name l = Ok p -> shown types index name l p.
Proof.
  unfold one_dev. destruct (index name) as [num|] eqn:X; [|discriminate]. destruct (addr_loop l [] (repeat 0 6)) as [[ips mac]|e] eqn:A; cbn [bindr]; [|discriminate].
  destruct (dget name types) as [t|] eqn:T; [|discriminate]. intros H. injection H as <-. destruct (addr_loop_spec _ _ _ _ A) as (A1 & A2 & _). cbn [fst snd] in A1, A2.
  destruct (assign_all ips (fst (if_new name (Some mac) (Some num) 0))) as (B1 & B2 & B3 & B4 & B5). unfold shown. cbn [if_new take_num fst snd mac_of] in *. rewrite B3, B4, B5.
  split; [reflexivity|]. split; [exact X|]. split; [exact A2|]. split; [exact T|]. split; [apply B2; constructor|]. intros a. rewrite B1, A1. cbn [if_ips In]. tauto.
Qed.
Lemma dev_loop_spec types index info : forall devs d r, dev_loop types index info devs d = Ok r -> NoDup (dkeys d) ->
  NoDup (dkeys r) /\ (forall name p, dget name r = Some p -> (dget name d = Some p /\ ~ (In name devs /\ dget name info <> None)) \/ (In name devs /\ exists l, dget name info = Some l /\ shown types index name l p)) /\
  (forall name, In name devs -> dget name info <> None -> dget name r <> None) /\ (forall name, dget name d <> None -> dget name r <> None).
Proof.
  induction devs as [|x devs IH]; intros d r H N; cbn [dev_loop] in H.
  - injection H as <-. split; [exact N|]. split; [intros name p G; left; split; [exact G|intros [[] _]]|]. split; [intros name []|auto].
  - destruct (dget x info) as [l|] eqn:X.
    + destruct (one_dev types index x l) as [p|e] eqn:O; cbn [bindr] in H; [|discriminate]. destruct (IH _ _ H (dset_NoDup x p d N)) as (R1 & R2 & R3 & R4). split; [exact R1|]. split; [|split].
      * intros name q G. destruct (R2 _ _ G) as [[K1 K2]|(K1 & l' & K2 & K3)]; [|right; split; [right; exact K1|eauto]].
        destruct (str_spec name x) as [->|Ne].
        -- rewrite dget_dset_same in K1. injection K1 as <-. right. split; [left; reflexivity|]. exists l. split; [exact X|]. apply one_dev_spec. exact O.
        -- rewrite dget_dset_other in K1 by exact Ne. left. split; [exact K1|]. intros [[E|I] Y]; [congruence|]. apply K2. auto.
      * intros name [<-|I] Y; [|exact (R3 _ I Y)]. apply R4. rewrite dget_dset_same. discriminate.
      * intros name Y. apply R4. destruct (str_spec name x) as [->|Ne]; [rewrite dget_dset_same; discriminate|rewrite dget_dset_other by exact Ne; exact Y].
    + destruct (IH _ _ H N) as (R1 & R2 & R3 & R4). split; [exact R1|]. split; [|split; [|exact R4]].
      * intros name q G. destruct (R2 _ _ G) as [[K1 K2]|(K1 & l' & K2 & K3)]; [|right; split; [right; exact K1|eauto]]. left. split; [exact K1|]. intros [[<-|I] Y]; [congruence|]. apply K2. auto.
      * intros name [<-|I] Y; [congruence|exact (R3 _ I Y)].
Qed.
Lemma dev_loop_total types index info : forall devs d, (forall x l, In x devs -> dget x info = Some l -> Forall has_mask l /\ dget x types <> None /\ index x <> None) -> exists r, dev_loop types index info devs d = Ok r.
Proof.
  induction devs as [|x devs IH]; intros d H; cbn [dev_loop]; [eauto|]. destruct (dget x info) as [l|] eqn:X; [|apply IH; intros; apply H; auto; right; auto].
  destruct (H x l (or_introl eq_refl) X) as (M & T & I). unfold one_dev. destruct (index x); [|congruence]. destruct (addr_loop_total l [] (repeat 0 6) M) as [[ips mac] ->]. cbn [bindr].
  destruct (dget x types) as [t|]; [|congruence]. cbn [bindr]. apply IH. intros. apply H; auto. right. auto.
Qed.
Lemma dev_types_spec linux w : forall pcap d x t, dget x (fold_left (fun d x => dset (fst x) (dev_type linux w (snd x)) d) pcap d) = Some t ->
  (exists l, In (x, l) pcap /\ t = dev_type linux w l) \/ dget x d = Some t.
Proof.
  induction pcap as [|[y l] pcap IH]; intros d x t H; cbn [fold_left fst snd] in H; [auto|]. destruct (IH _ _ _ H) as [(l' & I & E)|K]; [left; exists l'; split; [right; exact I|exact E]|].
  destruct (str_spec x y) as [->|N]; [rewrite dget_dset_same in K; injection K as <-; left; exists l; split; [left; reflexivity|reflexivity]|]. rewrite dget_dset_other in K by exact N. auto.
Qed.
Lemma dev_types_total linux w : forall pcap d x, In x (map fst pcap) \/ dget x d <> None -> dget x (fold_left (fun d x => dset (fst x) (dev_type linux w (snd x)) d) pcap d) <> None.
Proof.
  induction pcap as [|[y l] pcap IH]; intros d x H; cbn [fold_left map fst snd In] in *; [destruct H as [[]|H]; exact H|]. apply IH. destruct (str_spec x y) as [->|N]; [right; rewrite dget_dset_same; discriminate|].
  destruct H as [[E|I]|H]; [congruence|auto|]. right. rewrite dget_dset_other by exact N. exact H.
Qed.
