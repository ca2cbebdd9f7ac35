From Verif Require Import BaseLemmas CodecLemmas Dict EthAddrModel Enums EthModel ArpModel Ipv4Model TransportModel Ipv6Model IcmpModel RipModel PacketModel PacketSpec PacketProofs PacketParse PacketTerm
  FieldModel RegModel RegSpec.
#[local] Open Scope string_scope.
#[local] Open Scope Z_scope.
#[local] Open Scope list_scope.


Definition lift_cls (r : res (option hcls)) : res (option cls) := match r with Ok (Some c) => Ok (Some (L c)) | Ok None => Ok None | Err e => Err e end.

Lemma look_eth us t : lookup (shipped us) eth_map (Some t) = (if t =? etVlan then Some (L CVlan) else option_map L (link_class t)).
Proof. unfold lookup, shipped, eth_map, links, link_class. cbn [g_maps nth app hget].
  destruct (t =? etIP) eqn:A; [apply Z.eqb_eq in A; subst; reflexivity|]. destruct (t =? etARP) eqn:B; [apply Z.eqb_eq in B; subst; reflexivity|].
  destruct (t =? etIPv6) eqn:C; [apply Z.eqb_eq in C; subst; reflexivity|]. destruct (t =? etVlan); [reflexivity|]. destruct (t =? etNoType); reflexivity. Qed.
Lemma look_vlan us t : lookup (shipped us) vlan_map (Some t) = option_map L (link_class t).
Proof. unfold lookup, shipped, vlan_map, links, link_class. cbn [g_maps nth app hget].
  destruct (t =? etIP); [reflexivity|]. destruct (t =? etARP); [reflexivity|]. destruct (t =? etIPv6); [reflexivity|]. destruct (t =? etNoType); reflexivity. Qed.
Lemma look_ip4 us t : lookup (shipped us) ip4_map (Some t) = option_map L (ip4_class t).
Proof. unfold lookup, shipped, ip4_map, ip4_class. cbn [g_maps nth hget].
  destruct (t =? ipICMP); [reflexivity|]. destruct (t =? ipTCP); [reflexivity|]. destruct (t =? ipUDP); reflexivity. Qed.
Lemma look_ip6 us t : lookup (shipped us) ip6_map (Some t) = option_map L (ip6_class t).
Proof. unfold lookup, shipped, ip6_map, ip6_class. cbn [g_maps nth hget].
  destruct (t =? ipTCP); [reflexivity|]. destruct (t =? ipUDP); [reflexivity|]. destruct (t =? ipICMPv6); [reflexivity|]. destruct (t =? 0); [reflexivity|].
  destruct (t =? 43); [reflexivity|]. destruct (t =? 44); [reflexivity|]. destruct (t =? 60); [reflexivity|]. destruct (t =? 59); reflexivity. Qed.
Lemma look_ext us o : lookup (shipped us) ip6_map o = option_map L (ext_class o).
Proof. destruct o as [t|]; [|reflexivity]. apply look_ip6. Qed.

Lemma shipped_next us h : next_cls (shipped us) (LH h) = lift_cls (next_class h).
Proof.
  assert (M : forall o, Ok (option_map L o) = lift_cls (Ok o)) by (intros [o|]; reflexivity).
  destruct h; cbn [next_cls next_class]; try reflexivity; try (rewrite look_ext; apply M).
  - unfold base_next, key_of, map_of. cbn [cls_of class_of shipped g_key g_map]. change (str_eqb "_ethertype" "") with false. cbn [attr_of].
    change (fld_of "_ethertype") with (Some FEthertype). cbn [get]. rewrite look_eth. destruct (_ =? etVlan); [reflexivity|apply M].
  - unfold base_next, key_of, map_of. cbn [cls_of class_of shipped g_key g_map]. change (str_eqb "_ethertype" "") with false. cbn [attr_of].
    change (fld_of "_ethertype") with (Some FEthertype). cbn [get]. rewrite look_vlan. apply M.
  - unfold base_next, key_of, map_of. cbn [cls_of class_of shipped g_key g_map]. change (str_eqb "_protocol" "") with false. cbn [attr_of].
    change (fld_of "_protocol") with (Some FProtocol). cbn [get]. rewrite look_ip4. apply M.
  - unfold base_next, key_of, map_of. cbn [cls_of class_of shipped g_key g_map]. change (str_eqb "_nextheader" "") with false. cbn [attr_of].
    change (fld_of "_nextheader") with (Some FNextHeader). cbn [get]. rewrite look_ip6. apply M.
  - destruct (_ =? 2); [reflexivity|]. destruct (_ =? 10); reflexivity.
Qed.

Lemma nth_upd ms : forall n m f, nth m (upd_map ms n f) [] = if (Nat.eqb m n && Nat.ltb n (List.length ms))%bool then f (nth m ms []) else nth m ms [].
Proof. induction ms as [|x t IH]; intros n m f; [destruct n, m; cbn [upd_map nth List.length]; rewrite ?Bool.andb_false_r; reflexivity|].
  destruct n, m; cbn [upd_map nth List.length]; try reflexivity. rewrite IH. reflexivity. Qed.
Lemma look_add g c k d m z : (map_of g c < List.length (g_maps g))%nat ->
  lookup (add_class g c k d) m (Some z) = if (Nat.eqb m (map_of g c) && (z =? k))%bool then Some d else lookup g m (Some z).
Proof. intros Hl. unfold lookup, add_class. cbn [g_maps]. rewrite nth_upd. apply Nat.ltb_lt in Hl. rewrite Hl, Bool.andb_true_r.
  destruct (Nat.eqb m (map_of g c)); [|reflexivity]. cbn [hget andb]. destruct (z =? k); reflexivity. Qed.
Lemma look_none g m : lookup g m None = None. Proof. reflexivity. Qed.

Lemma map_shipped us c : (map_of (shipped us) c < List.length (g_maps (shipped us)))%nat.
Proof. unfold map_of. cbn [shipped g_map g_maps List.length]. destruct c as [[]|]; repeat constructor. Qed.
(** The header after [h] under a registration. *)
Lemma reg_next us c v n h : registrable c -> next_cls (register us c v n) (LH h) =
  match number c h with Some x => if x =? v then Ok (Some (U n)) else lift_cls (next_class h) | None => lift_cls (next_class h) end.
Proof.
  intros R. rewrite <- (shipped_next us h).
  assert (X : forall m o, lookup (register us c v n) m o = match o with Some z => if (Nat.eqb m (map_of (shipped us) (L c)) && (z =? v))%bool then Some (U n) else lookup (shipped us) m o | None => None end).
  { intros m o. destruct o as [z|]; [|reflexivity]. unfold register. destruct c; (rewrite look_add; [reflexivity|]); first [exact (map_shipped us (L _)) | exact (map_shipped us (L CUdp)) | exact (map_shipped us (L CTcp))]. }
  assert (XN : forall m, lookup (shipped us) m None = None) by reflexivity.
  destruct R as [->|[->|[->|[->|[->| ->]]]]]; destruct h; cbn [next_cls number]; try reflexivity;
    try (unfold base_next, attr_of; cbn; reflexivity); rewrite ?X.
  all: try (match goal with |- context [lookup _ _ ?o] => destruct o; try reflexivity end).
  all: try (change (Nat.eqb ip6_map (map_of (shipped us) (L CIp6))) with true; cbn [andb]; destruct (_ =? v); reflexivity).
  - change (base_next (register us CEth v n) (LH (HEth h))) with (Ok (lookup (register us CEth v n) eth_map (Some (eth_type h)))). rewrite X.
    change (Nat.eqb eth_map (map_of (shipped us) (L CEth))) with true. cbn [andb]. destruct (_ =? v); reflexivity.
  - change (base_next (register us CVlan v n) (LH (HVlan h))) with (Ok (lookup (register us CVlan v n) vlan_map (Some (vl_type h)))). rewrite X.
    change (Nat.eqb vlan_map (map_of (shipped us) (L CVlan))) with true. cbn [andb]. destruct (_ =? v); reflexivity.
  - change (base_next (register us CIp4 v n) (LH (HIp4 h))) with (Ok (lookup (register us CIp4 v n) ip4_map (Some (ip_proto h)))). rewrite X.
    change (Nat.eqb ip4_map (map_of (shipped us) (L CIp4))) with true. cbn [andb]. destruct (_ =? v); reflexivity.
  - change (base_next (register us CIp6 v n) (LH (HIp6 h))) with (Ok (lookup (register us CIp6 v n) ip6_map (Some (v6_nh h)))). rewrite X.
    change (Nat.eqb ip6_map (map_of (shipped us) (L CIp6))) with true. cbn [andb]. destruct (_ =? v); reflexivity.
  - change (base_next (register us CUdp v n) (LH (HUdp h))) with (Ok (lookup (register us CUdp v n) udp_map (Some (udp_dst h)))). rewrite X.
    change (Nat.eqb udp_map (map_of (shipped us) (L CUdp))) with true. cbn [andb]. destruct (_ =? v); reflexivity.
  - change (base_next (register us CTcp v n) (LH (HTcp h))) with (Ok (lookup (register us CTcp v n) tcp_map (Some (tcp_dst h)))). rewrite X.
    change (Nat.eqb tcp_map (map_of (shipped us) (L CTcp))) with true. cbn [andb]. destruct (_ =? v); reflexivity.
Qed.
Lemma reg_next_user us c v n k w : next_cls (register us c v n) (UH k w) = Ok None.
Proof. destruct c; reflexivity. Qed.

Definition lift_loop (r : res (list hdr * option bytes)) : res (list hd * option bytes) := ' (hs, fin) <- r;; Ok (map LH hs, fin).
Lemma RL g fuel c raw : reg_loop g (S fuel) c raw =
  match c with
  | L CBytes => Ok ([], Some raw)
  | _ => ' (h, rest) <- read_hd g c raw;; nc <- next_cls g h;;
    match nc with
    | None => Ok ([h], rest)
    | Some c' => match rest with None => Err EType | Some r => ' (hs, fin) <- reg_loop g fuel c' r;; Ok (h :: hs, fin) end
    end
  end.
Proof. destruct c; reflexivity. Qed.
Lemma PL' fuel c raw : c <> CBytes -> parse_loop (S fuel) c raw =
  (' (h, rest) <- parse_hdr c raw;; nc <- next_class h;;
    match nc with
    | None => Ok ([h], rest)
    | Some c' => match rest with None => Err EType | Some r => ' (hs, fin) <- parse_loop fuel c' r;; Ok (h :: hs, fin) end
    end).
Proof. intros H. rewrite PL. destruct c; try reflexivity. contradiction. Qed.
Lemma RL' g fuel c raw : c <> CBytes -> reg_loop g (S fuel) (L c) raw =
  (' (h, rest) <- parse_hdr c raw;; nc <- next_cls g (LH h);;
    match nc with
    | None => Ok ([LH h], rest)
    | Some c' => match rest with None => Err EType | Some r => ' (hs, fin) <- reg_loop g fuel c' r;; Ok (LH h :: hs, fin) end
    end).
Proof. intros H. rewrite RL. unfold read_hd. transitivity (' (h, rest) <- (' (h, rest) <- parse_hdr c raw;; Ok (LH h, rest));; nc <- next_cls g h;;
    match nc with
    | None => Ok ([h], rest)
    | Some c' => match rest with None => Err EType | Some r => ' (hs, fin) <- reg_loop g fuel c' r;; Ok (h :: hs, fin) end
    end); [destruct c; try reflexivity; contradiction|]. destruct (parse_hdr c raw) as [[h r]|e]; reflexivity. Qed.
Lemma cls_bytes_dec (c : hcls) : c = CBytes \/ c <> CBytes.
Proof. destruct c; (now left) || (right; discriminate). Qed.

Lemma shipped_loop us fuel : forall c raw, reg_loop (shipped us) fuel (L c) raw = lift_loop (parse_loop fuel c raw).
Proof.
  induction fuel as [|fuel IH]; intros c raw; [reflexivity|]. destruct (cls_bytes_dec c) as [->|N]; [reflexivity|].
  rewrite (PL' _ _ _ N), (RL' _ _ _ _ N). destruct (parse_hdr c raw) as [[h r]|e]; [|reflexivity]. cbn [bindr]. rewrite shipped_next.
  destruct (next_class h) as [[c'|]|e]; cbn [lift_cls bindr]; try reflexivity. destruct r as [r|]; [|reflexivity]. rewrite IH.
  destruct (parse_loop fuel c' r) as [[hs fin]|e]; reflexivity.
Qed.

Lemma tells_bool c v h : number c h = Some v \/ match number c h with Some x => (x =? v) = false | None => True end.
Proof. destruct (number c h) as [x|]; [|now right]. destruct (x =? v) eqn:E; [left; apply Z.eqb_eq in E; now subst|now right]. Qed.
Lemma tells_next c v h : registrable c -> unused c v -> tells c v h -> next_class h = Ok None.
Proof. intros R F T. rewrite next_says; [now rewrite (F h T)|]. intros af ->. unfold tells in T. destruct R as [->|[->|[->|[->|[->| ->]]]]]; discriminate T. Qed.
Lemma tells_rest c v c0 raw h r : registrable c -> tells c v h -> parse_hdr c0 raw = Ok (h, r) -> exists b, r = Some b.
Proof. intros R T H. destruct r as [b|]; [now exists b|exfalso]. destruct c0; cbn [parse_hdr] in H; try discriminate H; unfold bindr in H;
  try (match type of H with context [match ?x with Ok _ => _ | Err _ => _ end] => destruct x as [[? ?]|] end; discriminate H).
  destruct (rip_from_bytes rip_new raw) as [a|]; [|discriminate].
  assert (E2 : h = HRip a) by congruence. subst h. unfold tells in T. destruct R as [->|[->|[->|[->|[->| ->]]]]]; discriminate T. Qed.

(** One more round for the registered class. *)
Lemma register_loop us c v n : registrable c -> unused c v -> forall fuel c0 raw,
  match parse_loop fuel c0 raw with
  | Err e => e <> EFuel -> reg_loop (register us c v n) (S fuel) (L c0) raw = Err e
  | Ok (hs, fin) =>
      ((forall h, In h hs -> ~ tells c v h) /\ reg_loop (register us c v n) (S fuel) (L c0) raw = Ok (map LH hs, fin)) \/
      exists pre h b, hs = pre ++ [h] /\ fin = Some b /\ tells c v h /\
        reg_loop (register us c v n) (S fuel) (L c0) raw = (' (w, rest) <- u_from (us n) b;; Ok (map LH hs ++ [UH n w], Some rest))
  end.
Proof.
  intros R F. induction fuel as [|fuel IH]; intros c0 raw; [cbn [parse_loop]; contradiction|].
  destruct (cls_bytes_dec c0) as [->|N]; [left; split; [intros h []|reflexivity]|].
  rewrite (PL' _ _ _ N), (RL' _ _ _ _ N). destruct (parse_hdr c0 raw) as [[h r]|e] eqn:P; [|cbn [bindr]; auto]. cbn [bindr]. rewrite (reg_next _ _ _ _ _ R).
  destruct (tells_bool c v h) as [T|T].
  - rewrite (tells_next c v h R F T). rewrite T, Z.eqb_refl. cbn [bindr]. destruct (tells_rest _ _ _ _ _ _ R T P) as (b & ->). right. exists [], h, b.
    split; [reflexivity|]. split; [reflexivity|]. split; [exact T|]. rewrite RL. cbn [read_hd]. 
    assert (G : g_user (register us c v n) n = us n) by (destruct c; reflexivity). rewrite G.
    destruct (u_from (us n) b) as [[w rest]|e]; [|reflexivity]. cbn [bindr]. rewrite reg_next_user. reflexivity.
  - assert (NT : ~ tells c v h). { intros X. unfold tells in X. rewrite X in T. rewrite Z.eqb_refl in T. discriminate. }
    assert (E : match number c h with Some x => if x =? v then Ok (Some (U n)) else lift_cls (next_class h) | None => lift_cls (next_class h) end = lift_cls (next_class h)).
    { destruct (number c h); [rewrite T|]; reflexivity. }
    rewrite E. clear E. destruct (next_class h) as [[c'|]|e]; cbn [lift_cls bindr].
    + destruct r as [r|]; [|cbn; auto]. specialize (IH c' r). destruct (parse_loop fuel c' r) as [[hs fin]|e]; cbn [bindr]; [|intros NF; now rewrite (IH NF)].
      destruct IH as [[A B]|(pre & h' & b & A & B & C & D)].
      * left. split; [intros x [<-|X]; auto|]. rewrite B. reflexivity.
      * right. exists (h :: pre), h', b. split; [now rewrite A|]. split; [exact B|]. split; [exact C|]. rewrite D. destruct (u_from (us n) b) as [[w rest]|e]; reflexivity.
    + left. split; [intros x [<-|[]]; auto|reflexivity].
    + intros _. reflexivity.
Qed.

Lemma raw_payload fin : raw_rest fin = map LH (match fin with Some (b :: r) => [HRaw (b :: r)] | _ => [] end).
Proof. destruct fin as [[|x r]|]; reflexivity. Qed.

Theorem shipped_parse us raw c : reg_parse (shipped us) raw (L c) = (p <- pkt_new raw c;; Ok (map LH p)).
Proof.
  destruct raw as [|x r] eqn:Er; [reflexivity|]. rewrite <- Er. rewrite (packet_parse_rounds raw c (S (S (S (S (S (List.length raw))))))) by (subst; cbn; try discriminate; lia).
  unfold reg_parse. rewrite Er at 1. rewrite shipped_loop. destruct (parse_loop _ c raw) as [[hs fin]|e]; [|reflexivity]. cbn [lift_loop bindr]. unfold with_rest.
  cbn [fst snd]. rewrite map_app, raw_payload. reflexivity.
Qed.

Theorem register_parse us c v n raw c0 : registrable c -> unused c v -> pkt_new raw c0 <> Err EFuel ->
  match pkt_new raw c0 with
  | Ok p => continues us c v n p (reg_parse (register us c v n) raw (L c0))
  | Err e => reg_parse (register us c v n) raw (L c0) = Err e
  end.
Proof.
  intros R F NF. destruct raw as [|x r] eqn:Er; [left; split; [intros h []|reflexivity]|]. rewrite <- Er in *.
  assert (P : pkt_new raw c0 = (x <- parse_loop (S (S (S (S (List.length raw))))) c0 raw;; Ok (with_rest x))) by (subst; reflexivity).
  assert (Q : reg_parse (register us c v n) raw (L c0) = (' (hs, fin) <- reg_loop (register us c v n) (S (S (S (S (S (List.length raw)))))) (L c0) raw;; Ok (hs ++ raw_rest fin))) by (subst; reflexivity).
  rewrite P in *. rewrite Q. pose proof (register_loop us c v n R F (S (S (S (S (List.length raw))))) c0 raw) as H.
  destruct (parse_loop (S (S (S (S (List.length raw))))) c0 raw) as [[hs fin]|e]; cbn [bindr] in *.
  - unfold with_rest. cbn [fst snd]. destruct H as [[A B]|(pre & h & b & -> & -> & T & D)].
    + left. rewrite B. cbn [bindr]. rewrite map_app, raw_payload. split; [|reflexivity]. intros h I. apply in_app_or in I as [I|I]; [now apply A|].
      destruct fin as [[|y s]|]; try contradiction. destruct I as [<-|[]]. unfold tells. destruct R as [->|[->|[->|[->|[->| ->]]]]]; discriminate.
    + right. exists pre, h, b. split; [rewrite <- app_assoc; destruct b; reflexivity|]. split; [exact T|]. rewrite D.
      destruct (u_from (us n) b) as [[w rest]|e]; [|reflexivity]. cbn [bindr]. rewrite raw_payload, <- !app_assoc. cbn [app]. destruct rest; reflexivity.
  - rewrite H; [reflexivity|]. intros ->. now apply NF.
Qed.

(** ** Writing and reading back *)
Lemma pre_ser_number c raw p h h' : pre_ser raw p h = Ok h' -> number c (hdr_after h') = number c h /\ (forall b, h = HRaw b -> hdr_after h' = HRaw b).
Proof.
  intros H. destruct h; cbn [pre_ser] in H; try discriminate H;
    try (assert (E : h' = _) by (symmetry; apply ok_inj; exact H); subst h'; split; [destruct c; reflexivity|intros b E0; exact E0]);
    try (assert (E : h' = _) by (symmetry; apply ok_inj; exact H); subst h'; split; [destruct c; reflexivity|discriminate]).
  - unfold ip_pre_serialize in H. destruct (ip_size h) as [z|]; [|discriminate]. cbn [bindr] in H. apply ok_inj in H. subst h'. split; [destruct c; reflexivity|discriminate].
  - apply ok_inj in H. subst h'. cbn [hdr_after]. unfold hop_serialised. split; [|discriminate]. repeat match goal with |- context [match ?x with _ => _ end] => destruct x end; destruct c; reflexivity.
  - apply ok_inj in H. subst h'. cbn [hdr_after]. unfold hop_serialised. split; [|discriminate]. repeat match goal with |- context [match ?x with _ => _ end] => destruct x end; destruct c; reflexivity.
  - unfold udp_pre_serialize in H. destruct (udp_checksum _ _ _ _) as [z|]; [|discriminate]. cbn [bindr] in H. apply ok_inj in H. subst h'. split; [destruct c; reflexivity|discriminate].
  - unfold tcp_pre_serialize in H. destruct (tcp_checksum _ _ _ _) as [z|]; [|discriminate]. cbn [bindr] in H. apply ok_inj in H. subst h'. split; [destruct c; reflexivity|discriminate].
  - destruct (icmp6_pre_serialize _ _) as [y|]; [|discriminate]. cbn [bindr] in H.
    apply ok_inj in H. subst h'. split; [destruct c; reflexivity|discriminate].
  - apply ok_inj in H. subst h'. split; [destruct c; reflexivity|intros b0 E0; exact E0].
Qed.
Lemma ser_number c hs : forall pre p b, ser pre hs = Ok (p, b) ->
  Forall2 (fun h h' => number c h' = number c h /\ forall b, h = HRaw b -> h' = HRaw b) hs p.
Proof.
  induction hs as [|h t IH]; intros pre p b H; cbn [ser] in H; [apply ok_pair_inj in H as [<- _]; constructor|].
  destruct (ser (pre ++ [h]) t) as [[t' raw]|] eqn:E; [|discriminate]. cbn [bindr] in H.
  destruct (pre_ser raw (pre ++ h :: t') h) as [h'|] eqn:P; [|discriminate]. cbn [bindr] in H. destruct (hdr_bytes h'); [|discriminate]. cbn [bindr] in H.
  apply ok_pair_inj in H as [<- _]. constructor; [exact (pre_ser_number c _ _ _ _ P)|exact (IH _ _ _ E)].
Qed.
Lemma read_number c h h' : read_as h h' -> number c h' = number c h /\ forall b, h = HRaw b -> h' = HRaw b.
Proof.
  intros H. destruct h, h'; cbn [read_as] in H; try discriminate H; try (injection H as ->; split; [reflexivity|auto]; fail); try (rewrite H; split; auto; fail).
  - destruct H as (k & _ & _ & ->). split; [destruct c; reflexivity|discriminate].
  - subst. split; [destruct c; reflexivity|discriminate].
  - subst. split; [destruct c; reflexivity|discriminate].
  - subst. split; [destruct c; reflexivity|discriminate].
  - split; [reflexivity|discriminate].
Qed.
Lemma f2_comp c x : forall p q, Forall2 (fun h h' => number c h' = number c h /\ forall b, h = HRaw b -> h' = HRaw b) x p -> Forall2 read_as p q ->
  Forall2 (fun h h' => number c h' = number c h /\ forall b, h = HRaw b -> h' = HRaw b) x q.
Proof. intros p q H. revert q. induction H as [|h h1 x p [A B] H IH]; intros q Q; inversion Q; subst; constructor; auto.
  match goal with R : read_as _ _ |- _ => destruct (read_number c _ _ R) as [C D] end. split; [congruence|intros b Hb; apply D, B, Hb]. Qed.

Lemma f2_tail {A B} (R : A -> B -> Prop) pre a b q : Forall2 R (pre ++ [a; b]) q -> exists pre' a' b', q = pre' ++ [a'; b'] /\ Forall2 R pre pre' /\ R a a' /\ R b b'.
Proof. intros H. apply Forall2_app_inv_l in H as (q1 & q2 & H1 & H2 & ->). inversion H2 as [|? a' ? ? Ra H3]; subst. inversion H3 as [|? b' ? ? Rb H4]; subst. inversion H4; subst.
  exists q1, a', b'. auto. Qed.
Lemma not_raw c v b : registrable c -> ~ tells c v (HRaw b).
Proof. unfold tells. intros [->|[->|[->|[->|[->| ->]]]]]; discriminate. Qed.

Lemma plain_lib g p : plain g (map LH p) = Ok p.
Proof. induction p as [|h t IH]; [reflexivity|]. cbn [map plain]. rewrite IH. reflexivity. Qed.
Lemma plain_app g p q : plain g (p ++ q) = (a <- plain g p;; b <- plain g q;; Ok (a ++ b)).
Proof. induction p as [|[h|n w] t IH]; cbn [app plain bindr].
  - destruct (plain g q); reflexivity.
  - rewrite IH. destruct (plain g t); [|reflexivity]. cbn [bindr]. destruct (plain g q); reflexivity.
  - destruct (u_to _ _); [|reflexivity]. cbn [bindr]. rewrite IH. destruct (plain g t); [|reflexivity]. cbn [bindr]. destruct (plain g q); reflexivity. Qed.

Theorem register_round_trip us c v n pre h w body w' bs h0 t : registrable c -> unused c v -> tells c v h ->
  u_to (us n) w = Ok body -> u_from (us n) body = Ok (w', []) ->
  pre ++ [h; HRaw body] = h0 :: t -> chained (h0 :: t) -> Forall wf_hdr (h0 :: t) ->
  reg_bytes (register us c v n) (map LH (pre ++ [h]) ++ [UH n w]) = Ok bs ->
  exists sent q, pkt_to_bytes (pre ++ [h; HRaw body]) = Ok (sent ++ [HRaw body], bs) /\ Forall2 read_as sent q /\
    reg_parse (register us c v n) bs (L (class_of h0)) = Ok (map LH q ++ [UH n w']).
Proof.
  intros R F T Hto Hfrom Hx Hc Hw Hb. unfold reg_bytes in Hb. rewrite plain_app, plain_lib in Hb. cbn [bindr plain] in Hb.
  assert (G : g_user (register us c v n) n = us n) by (destruct c; reflexivity). rewrite G, Hto in Hb. cbn [bindr] in Hb. rewrite <- app_assoc in Hb. cbn [app] in Hb.
  destruct (pkt_to_bytes (pre ++ [h; HRaw body])) as [[p' b]|] eqn:P; [|discriminate]. cbn [bindr] in Hb. apply ok_inj in Hb. subst b.
  pose proof (ser_number c _ _ _ _ P) as N1.
  assert (P2 : pkt_to_bytes (h0 :: t) = Ok (p', bs)) by (rewrite <- Hx; exact P).
  destruct (packet_round_trip h0 t p' bs Hc Hw P2) as (q & Q1 & Q2). pose proof (f2_comp c _ _ _ N1 Q2) as N2.
  destruct (f2_tail _ _ _ _ _ N1) as (s1 & h1 & r1 & -> & _ & [Nh _] & [_ Er]). specialize (Er body eq_refl). subst r1.
  destruct (f2_tail _ _ _ _ _ Q2) as (q1 & h2 & r2 & -> & A & B & C). assert (r2 = HRaw body) by (exact (proj2 (read_number c _ _ C) body eq_refl)). subst r2.
  destruct (read_number c _ _ B) as [Nh2 _].
  exists (s1 ++ [h1]), (q1 ++ [h2]). split; [rewrite <- app_assoc; reflexivity|]. split; [apply Forall2_app; [exact A|constructor; [exact B|constructor]]|].
  pose proof (register_parse us c v n bs (class_of h0) R F) as X. rewrite Q1 in X. specialize (X ltac:(discriminate)).
  assert (T2 : tells c v h2) by (unfold tells in *; congruence).
  destruct X as [[X _]|(pre' & h' & b' & E & T' & X)]; [exfalso; apply (X h2); [apply in_or_app; right; now left|exact T2]|].
  assert (H0 : pre' = q1 /\ h' = h2 /\ b' = body).
  { destruct b' as [|y s]; cbn [payload] in E.
    - change (q1 ++ [h2; HRaw body]) with (q1 ++ [h2] ++ [HRaw body]) in E. rewrite app_assoc in E. apply app_inj_tail in E as [_ E]. subst h'. exfalso. exact (not_raw c v body R T').
    - change (q1 ++ [h2; HRaw body]) with (q1 ++ [h2] ++ [HRaw body]) in E. change (pre' ++ [h'; HRaw (y :: s)]) with (pre' ++ [h'] ++ [HRaw (y :: s)]) in E.
      rewrite !app_assoc in E. apply app_inj_tail in E as [E1 E2]. apply app_inj_tail in E1 as [E1 E3]. repeat split; congruence. }
  destruct H0 as (-> & -> & ->). rewrite Hfrom in X. exact X.
Qed.

(** ** Registrations that change nothing *)
Lemma loop_same g g' : (forall h, next_cls g h = next_cls g' h) -> (forall k, g_user g k = g_user g' k) ->
  forall fuel c raw, reg_loop g fuel c raw = reg_loop g' fuel c raw.
Proof.
  intros Hn Hu. induction fuel as [|fuel IH]; intros c raw; [reflexivity|]. rewrite !RL.
  assert (E : read_hd g c raw = read_hd g' c raw) by (destruct c; cbn [read_hd]; [reflexivity|now rewrite Hu]). rewrite E.
  assert (F : (' (h, rest) <- read_hd g' c raw;; nc <- next_cls g h;;
    match nc with
    | None => Ok ([h], rest)
    | Some c' => match rest with None => Err EType | Some r => ' (hs, fin) <- reg_loop g fuel c' r;; Ok (h :: hs, fin) end
    end) = (' (h, rest) <- read_hd g' c raw;; nc <- next_cls g' h;;
    match nc with
    | None => Ok ([h], rest)
    | Some c' => match rest with None => Err EType | Some r => ' (hs, fin) <- reg_loop g' fuel c' r;; Ok (h :: hs, fin) end
    end)).
  { destruct (read_hd g' c raw) as [[h rest]|e]; [|reflexivity]. cbn [bindr]. rewrite Hn. destruct (next_cls g' h) as [[c'|]|e]; try reflexivity. cbn [bindr].
    destruct rest as [r|]; [|reflexivity]. now rewrite IH. }
  destruct c as [[]|]; try reflexivity; exact F.
Qed.
Definition fixed_next (c : hcls) : Prop := c = CArp \/ c = CIcmp \/ c = CIcmp6 \/ c = CRip \/ c = CRoute \/ c = CFrag \/ c = CHop \/ c = CDest \/ c = CNull.
Lemma ignored us c k v d raw c0 : fixed_next c ->
  reg_parse (add_class (set_key (shipped us) (L c) k) (L c) v d) raw c0 = reg_parse (shipped us) raw c0.
Proof.
  intros Hf. unfold reg_parse. destruct raw as [|x r]; [reflexivity|]. rewrite (loop_same _ (shipped us)); [reflexivity| |reflexivity].
  intros h. assert (M : map_of (set_key (shipped us) (L c) k) (L c) = base_map) by (destruct Hf as [->|[->|[->|[->|[->|[->|[->|[->| ->]]]]]]]]; reflexivity).
  assert (X : forall m o, m <> base_map -> lookup (add_class (set_key (shipped us) (L c) k) (L c) v d) m o = lookup (shipped us) m o).
  { intros m [z|] Hm; [|reflexivity]. rewrite look_add by (rewrite M; cbn; repeat constructor). rewrite M. apply Nat.eqb_neq in Hm. rewrite Hm. reflexivity. }
  clear M. destruct Hf as [->|[->|[->|[->|[->|[->|[->|[->| ->]]]]]]]]; destruct h as [[e|e| |e|e|e|e|e|e| | | | | | | | |]|n w]; cbn [next_cls]; try reflexivity;
    try (rewrite X by discriminate; reflexivity);
    match goal with
    | |- base_next ?g (LH (HEth ?e)) = base_next ?g2 _ => change (@Ok (option cls) (lookup g eth_map (Some (eth_type e))) = Ok (lookup g2 eth_map (Some (eth_type e))))
    | |- base_next ?g (LH (HVlan ?e)) = base_next ?g2 _ => change (@Ok (option cls) (lookup g vlan_map (Some (vl_type e))) = Ok (lookup g2 vlan_map (Some (vl_type e))))
    | |- base_next ?g (LH (HIp4 ?e)) = base_next ?g2 _ => change (@Ok (option cls) (lookup g ip4_map (Some (ip_proto e))) = Ok (lookup g2 ip4_map (Some (ip_proto e))))
    | |- base_next ?g (LH (HIp6 ?e)) = base_next ?g2 _ => change (@Ok (option cls) (lookup g ip6_map (Some (v6_nh e))) = Ok (lookup g2 ip6_map (Some (v6_nh e))))
    end; rewrite X by discriminate; reflexivity.
Qed.
