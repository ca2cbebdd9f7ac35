(** Several registered header classes (C108). *)
From Verif Require Import BaseLemmas CodecLemmas Dict EthAddrModel Enums EthModel ArpModel Ipv4Model TransportModel Ipv6Model IcmpModel RipModel PacketModel PacketSpec PacketProofs PacketParse PacketTerm
  FieldModel RegModel RegSpec RegProofs.
#[local] Open Scope string_scope.
#[local] Open Scope Z_scope.
#[local] Open Scope list_scope.

Definition dst_key (g : reg) (c : hcls) (m : nat) : Prop := key_of g (L c) = "dst" \/ (key_of g (L c) = "" /\ nth m (g_maps g) [] = []).
Record good (us : nat -> uclass) (g : reg) : Prop := {
  gd_map : g_map g = g_map (shipped us);
  gd_len : List.length (g_maps g) = 7%nat;
  gd_user : g_user g = us;
  gd_key : forall c, c <> L CUdp -> c <> L CTcp -> key_of g c = key_of (shipped us) c;
  gd_udp : dst_key g CUdp udp_map;
  gd_tcp : dst_key g CTcp tcp_map }.
Lemma good_shipped us : good us (shipped us).
Proof. constructor; try reflexivity; right; split; reflexivity. Qed.

Lemma len_upd ms : forall n f, List.length (upd_map ms n f) = List.length ms.
Proof. induction ms as [|x t IH]; intros [|n] f; cbn [upd_map List.length]; try reflexivity. now rewrite IH. Qed.
Lemma map_good us g c : good us g -> map_of g c = map_of (shipped us) c.
Proof. intros G. unfold map_of. now rewrite (gd_map _ _ G). Qed.
Lemma map_good_len us g c : good us g -> (map_of g c < List.length (g_maps g))%nat.
Proof. intros G. rewrite (map_good _ _ _ G), (gd_len _ _ G). exact (map_shipped us c). Qed.

Definition keyed (g : reg) (c : hcls) : reg := match c with CUdp | CTcp => set_key g (L c) "dst" | _ => g end.
Lemma one_eq g c v n : register_one g (c, v, n) = add_class (keyed g c) (L c) v (U n).
Proof. reflexivity. Qed.
Lemma keyed_map g c d : map_of (keyed g c) d = map_of g d. Proof. destruct c; reflexivity. Qed.
Lemma keyed_maps g c : g_maps (keyed g c) = g_maps g. Proof. destruct c; reflexivity. Qed.
Lemma keyed_gmap g c : g_map (keyed g c) = g_map g. Proof. destruct c; reflexivity. Qed.
Lemma keyed_user g c : g_user (keyed g c) = g_user g. Proof. destruct c; reflexivity. Qed.
Lemma keyed_key g c d : d <> L CUdp -> d <> L CTcp -> key_of (keyed g c) d = key_of g d.
Proof. intros A B. destruct c; try reflexivity; unfold key_of, keyed, set_key; cbn [g_key]; (destruct d as [[]|]; try reflexivity; contradiction). Qed.

Lemma nth_add g c k d m : (map_of g c < List.length (g_maps g))%nat ->
  nth m (g_maps (add_class g c k d)) [] = if Nat.eqb m (map_of g c) then (k, Some d) :: nth m (g_maps g) [] else nth m (g_maps g) [].
Proof. intros Hl. unfold add_class. cbn [g_maps]. rewrite nth_upd. apply Nat.ltb_lt in Hl. rewrite Hl, Bool.andb_true_r. reflexivity. Qed.

Lemma good_one us g c v n : registrable c -> good us g -> good us (register_one g (c, v, n)).
Proof.
  intros R G. rewrite one_eq. assert (Hl : (map_of (keyed g c) (L c) < List.length (g_maps (keyed g c)))%nat) by (rewrite keyed_map, keyed_maps; exact (map_good_len _ _ _ G)).
  assert (K : forall d, key_of (add_class (keyed g c) (L c) v (U n)) d = key_of (keyed g c) d) by reflexivity.
  constructor.
  - unfold add_class. cbn [g_map]. rewrite keyed_gmap. exact (gd_map _ _ G).
  - unfold add_class. cbn [g_maps]. rewrite len_upd, keyed_maps. exact (gd_len _ _ G).
  - unfold add_class. cbn [g_user]. rewrite keyed_user. exact (gd_user _ _ G).
  - intros d A B. rewrite K, keyed_key by assumption. exact (gd_key _ _ G d A B).
  - unfold dst_key. rewrite K, (nth_add _ _ _ _ _ Hl), keyed_map, keyed_maps, (map_good _ _ _ G). pose proof (gd_udp _ _ G) as X. unfold dst_key in X.
    destruct R as [->|[->|[->|[->|[->| ->]]]]]; try exact X; left; reflexivity.
  - unfold dst_key. rewrite K, (nth_add _ _ _ _ _ Hl), keyed_map, keyed_maps, (map_good _ _ _ G). pose proof (gd_tcp _ _ G) as X. unfold dst_key in X.
    destruct R as [->|[->|[->|[->|[->| ->]]]]]; try exact X; left; reflexivity.
Qed.

(** The header after [h], from the maps alone. *)
Definition port_next (g : reg) (m : nat) (d : Z) : res (option cls) := Ok (lookup g m (Some d)).
Lemma next_good us g h : good us g -> next_cls g (LH h) =
  match h with
  | HEth x => Ok (lookup g eth_map (Some (eth_type x)))
  | HVlan x => Ok (lookup g vlan_map (Some (vl_type x)))
  | HIp4 x => Ok (lookup g ip4_map (Some (ip_proto x)))
  | HIp6 x => Ok (lookup g ip6_map (Some (v6_nh x)))
  | HRoute x => Ok (lookup g ip6_map (ro_nh x))
  | HFrag x => Ok (lookup g ip6_map (fr_nh x))
  | HHop x | HDest x => Ok (lookup g ip6_map (ho_nh x))
  | HUdp x => Ok (lookup g udp_map (Some (udp_dst x)))
  | HTcp x => Ok (lookup g tcp_map (Some (tcp_dst x)))
  | HNull af => if af =? 2 then Ok (Some (L CIp4)) else if af =? 10 then Ok (Some (L CIp6)) else Err EExc
  | _ => Ok None
  end.
Proof.
  intros G.
  assert (K : forall c, c <> L CUdp -> c <> L CTcp -> key_of g c = key_of (shipped us) c) by exact (gd_key _ _ G).
  pose proof (fun c => map_good _ _ c G) as M. pose proof (gd_udp _ _ G) as DU. pose proof (gd_tcp _ _ G) as DT.
  destruct h; cbn [next_cls]; try reflexivity; unfold base_next; cbn [cls_of class_of].
  - rewrite K by discriminate. rewrite M. reflexivity.
  - rewrite K by discriminate. rewrite M. reflexivity.
  - rewrite K by discriminate. rewrite M. reflexivity.
  - rewrite K by discriminate. rewrite M. reflexivity.
  - rewrite M. destruct DU as [->|[-> E]]; [reflexivity|]. change (str_eqb "" "") with true. cbn [lookup]. unfold lookup. rewrite E. reflexivity.
  - rewrite M. destruct DT as [->|[-> E]]; [reflexivity|]. change (str_eqb "" "") with true. unfold lookup. rewrite E. reflexivity.
  - rewrite K by discriminate. reflexivity.
  - rewrite K by discriminate. reflexivity.
  - rewrite K by discriminate. reflexivity.
Qed.
Lemma next_good_user us g n w : good us g -> next_cls g (UH n w) = Ok None.
Proof. intros G. cbn [next_cls]. unfold base_next. cbn [cls_of]. rewrite (gd_key _ _ G) by discriminate. reflexivity. Qed.

Definition told (e : entry) (h : hdr) : bool := let '(c, v, _) := e in match number c h with Some x => x =? v | None => false end.
Lemma told_applies e h : told e h = true <-> applies e h.
Proof. destruct e as [[c v] n]. unfold told, applies, tells. destruct (number c h) as [x|]; [|split; discriminate]. rewrite Z.eqb_eq. split; [now intros ->|congruence]. Qed.
Lemma told_not e h : told e h = false <-> ~ applies e h.
Proof. rewrite <- told_applies. now destruct (told e h). Qed.

Lemma one_next us g c v n h : registrable c -> good us g ->
  next_cls (register_one g (c, v, n)) (LH h) = if told (c, v, n) h then Ok (Some (U n)) else next_cls g (LH h).
Proof.
  intros R G. pose proof (good_one us g c v n R G) as G'. rewrite (next_good _ _ h G'), (next_good _ _ h G).
  assert (Hl : (map_of (keyed g c) (L c) < List.length (g_maps (keyed g c)))%nat) by (rewrite keyed_map, keyed_maps; exact (map_good_len _ _ _ G)).
  assert (X : forall m o, lookup (register_one g (c, v, n)) m o =
    match o with Some z => if (Nat.eqb m (map_of (shipped us) (L c)) && (z =? v))%bool then Some (U n) else lookup g m o | None => None end).
  { intros m [z|]; [|reflexivity]. rewrite one_eq, look_add by exact Hl. rewrite keyed_map, (map_good _ _ _ G). unfold lookup. rewrite keyed_maps. reflexivity. }
  assert (XN : forall m, lookup g m None = None) by reflexivity.
  unfold told. destruct R as [->|[->|[->|[->|[->| ->]]]]]; destruct h; cbn [number]; try reflexivity; rewrite ?X;
    repeat match goal with |- context [map_of (shipped us) ?c] => let x := eval vm_compute in (map_of (shipped (fun _ => mkU (fun _ => Err EExc) (fun _ => Err EExc) (fun _ _ => None))) c) in change (map_of (shipped us) c) with x end;
    repeat match goal with |- context [Nat.eqb ?a ?b] => let x := eval vm_compute in (Nat.eqb a b) in change (Nat.eqb a b) with x end; cbn [andb]; try reflexivity;
    try (destruct (_ =? v); reflexivity);
    match goal with |- context [match ?o with Some _ => _ | None => None end] => destruct o; try reflexivity end; destruct (_ =? v); reflexivity.
Qed.

Fixpoint pick (es : list entry) (h : hdr) (acc : option nat) : option nat :=
  match es with [] => acc | e :: t => pick t h (if told e h then Some (snd e) else acc) end.
Lemma all_next us h es : forall g acc, good us g -> Forall allowed es ->
  next_cls g (LH h) = match acc with Some n => Ok (Some (U n)) | None => lift_cls (next_class h) end ->
  good us (fold_left register_one es g) /\
  next_cls (fold_left register_one es g) (LH h) = match pick es h acc with Some n => Ok (Some (U n)) | None => lift_cls (next_class h) end.
Proof.
  induction es as [|[[c v] n] t IH]; intros g acc G A E; cbn [fold_left pick]; [auto|]. inversion A as [|? ? R0 A']; subst. pose proof (proj1 R0 : registrable c) as R.
  apply IH; [now apply good_one|exact A'|]. rewrite (one_next us) by assumption. destruct (told (c, v, n) h); [reflexivity|exact E].
Qed.
Lemma all_good us es : Forall allowed es -> good us (register_all us es).
Proof. intros A. apply (all_next us (HRaw []) es (shipped us) None); [apply good_shipped|exact A|reflexivity]. Qed.
Lemma register_next us es h : Forall allowed es ->
  next_cls (register_all us es) (LH h) = match pick es h None with Some n => Ok (Some (U n)) | None => lift_cls (next_class h) end.
Proof. intros A. apply (all_next us h es (shipped us) None); [apply good_shipped|exact A|apply shipped_next]. Qed.

Lemma pick_none es h : forall acc, (forall e, In e es -> ~ applies e h) -> pick es h acc = acc.
Proof. induction es as [|e t IH]; intros acc H; [reflexivity|]. cbn [pick]. assert (T : told e h = false) by (apply told_not, H; now left). rewrite T. apply IH. intros x I. apply H. now right. Qed.
Lemma none_or es h : (forall e, In e es -> ~ applies e h) \/ exists n, latest es h n.
Proof.
  induction es as [|[[c v] n] t IH] using rev_ind; [left; intros e []|]. destruct (told (c, v, n) h) eqn:T.
  - right. exists n, t, c, v, []. split; [reflexivity|]. split; [exact (proj1 (told_applies _ _) T)|intros e []].
  - apply told_not in T. destruct IH as [IH|(n' & e1 & c' & v' & l & -> & A & B)].
    + left. intros e I. apply in_app_or in I as [I|[<-|[]]]; auto.
    + right. exists n', e1, c', v', (l ++ [(c, v, n)]). split; [now rewrite <- app_assoc|]. split; [exact A|]. intros e I. apply in_app_or in I as [I|[<-|[]]]; auto.
Qed.
Lemma pick_app a b h : forall acc, pick (a ++ b) h acc = pick b h (pick a h acc).
Proof. induction a as [|e t IH]; intros acc; cbn [app pick]; auto. Qed.
Lemma pick_latest es h n acc : latest es h n -> pick es h acc = Some n.
Proof.
  intros (a & c & v & l & -> & A & B). rewrite pick_app. cbn [pick]. assert (T : told (c, v, n) h = true) by (apply told_applies; exact A). rewrite T. now rewrite pick_none.
Qed.
Lemma latest_in es h n : latest es h n -> exists c v, In (c, v, n) es /\ tells c v h.
Proof. intros (a & c & v & l & -> & A & B). exists c, v. split; [apply in_or_app; right; now left|exact A]. Qed.

Lemma many_loop us es : Forall allowed es -> forall fuel c0 raw,
  match parse_loop fuel c0 raw with
  | Err e => e <> EFuel -> reg_loop (register_all us es) (S fuel) (L c0) raw = Err e
  | Ok (hs, fin) =>
      ((forall h e, In h hs -> In e es -> ~ applies e h) /\ reg_loop (register_all us es) (S fuel) (L c0) raw = Ok (map LH hs, fin)) \/
      exists pre h b n, hs = pre ++ [h] /\ fin = Some b /\ (forall x e, In x pre -> In e es -> ~ applies e x) /\ latest es h n /\
        reg_loop (register_all us es) (S fuel) (L c0) raw = (' (w, rest) <- u_from (us n) b;; Ok (map LH hs ++ [UH n w], Some rest))
  end.
Proof.
  intros A. pose proof (all_good us es A) as G. induction fuel as [|fuel IH]; intros c0 raw; [cbn [parse_loop]; contradiction|].
  destruct (cls_bytes_dec c0) as [->|N]; [left; split; [intros h e []|reflexivity]|].
  rewrite (PL' _ _ _ N), (RL' _ _ _ _ N). destruct (parse_hdr c0 raw) as [[h r]|e] eqn:P; [|cbn [bindr]; auto]. cbn [bindr]. rewrite (register_next _ _ _ A).
  destruct (none_or es h) as [T|(n & T)].
  - rewrite (pick_none _ _ _ T). destruct (next_class h) as [[c'|]|e]; cbn [lift_cls bindr].
    + destruct r as [r|]; [|cbn; auto]. specialize (IH c' r). destruct (parse_loop fuel c' r) as [[hs fin]|e]; cbn [bindr]; [|intros NF; now rewrite (IH NF)].
      destruct IH as [[B C]|(pre & h' & b & n & B & C & D & E & F)].
      * left. split; [intros x e [<-|X]; auto|]. rewrite C. reflexivity.
      * right. exists (h :: pre), h', b, n. split; [now rewrite B|]. split; [exact C|]. split; [intros x e [<-|X]; auto|]. split; [exact E|]. rewrite F.
        destruct (u_from (us n) b) as [[w rest]|e]; reflexivity.
    + left. split; [intros x e [<-|[]]; auto|reflexivity].
    + intros _. reflexivity.
  - rewrite (pick_latest _ _ _ _ T). destruct (latest_in _ _ _ T) as (c & v & I & Tv). rewrite Forall_forall in A. pose proof (proj1 (A _ I) : registrable c) as R. pose proof (proj2 (A _ I) : unused c v) as F.
    rewrite (tells_next c v h R F Tv). cbn [bindr]. destruct (tells_rest _ _ _ _ _ _ R Tv P) as (b & ->). right. exists [], h, b, n.
    split; [reflexivity|]. split; [reflexivity|]. split; [intros x e []|]. split; [exact T|]. rewrite RL. cbn [read_hd]. rewrite (gd_user _ _ G).
    destruct (u_from (us n) b) as [[w rest]|e]; [|reflexivity]. cbn [bindr]. rewrite (next_good_user us) by exact G. reflexivity.
Qed.

Theorem many_parse us es raw c0 : Forall allowed es -> pkt_new raw c0 <> Err EFuel ->
  match pkt_new raw c0 with
  | Ok p => continues_all us es p (reg_parse (register_all us es) raw (L c0))
  | Err e => reg_parse (register_all us es) raw (L c0) = Err e
  end.
Proof.
  intros A NF. destruct raw as [|x r] eqn:Er; [left; split; [intros h e []|reflexivity]|]. rewrite <- Er in *.
  assert (P : pkt_new raw c0 = (x <- parse_loop (S (S (S (S (List.length raw))))) c0 raw;; Ok (with_rest x))) by (subst; reflexivity).
  assert (Q : reg_parse (register_all us es) raw (L c0) = (' (hs, fin) <- reg_loop (register_all us es) (S (S (S (S (S (List.length raw)))))) (L c0) raw;; Ok (hs ++ raw_rest fin))) by (subst; reflexivity).
  rewrite P in *. rewrite Q. pose proof (many_loop us es A (S (S (S (S (List.length raw))))) c0 raw) as H.
  destruct (parse_loop (S (S (S (S (List.length raw))))) c0 raw) as [[hs fin]|e]; cbn [bindr] in *.
  - unfold with_rest. cbn [fst snd]. destruct H as [[B C]|(pre & h & b & n & -> & -> & D & T & E)].
    + left. rewrite C. cbn [bindr]. rewrite map_app, raw_payload. split; [|reflexivity]. intros h e I Ie. apply in_app_or in I as [I|I]; [now apply B|].
      destruct fin as [[|y s]|]; try contradiction. destruct I as [<-|[]]. destruct e as [[c v] n]. rewrite Forall_forall in A. pose proof (proj1 (A _ Ie) : registrable c) as R. exact (not_raw c v _ R).
    + right. exists pre, h, b, n. split; [rewrite <- app_assoc; destruct b; reflexivity|]. split; [exact D|]. split; [exact T|]. rewrite E.
      destruct (u_from (us n) b) as [[w rest]|e]; [|reflexivity]. cbn [bindr]. rewrite raw_payload, <- !app_assoc. cbn [app]. destruct rest; reflexivity.
  - rewrite H; [reflexivity|]. intros ->. now apply NF.
Qed.

(** ** Round trip with any number of registrations *)
Lemma same_applies e h h' : (forall c, number c h' = number c h) -> applies e h' <-> applies e h.
Proof. intros H. destruct e as [[c v] n]. unfold applies, tells. now rewrite H. Qed.
Lemma same_latest es h h' n : (forall c, number c h' = number c h) -> latest es h n -> latest es h' n.
Proof. intros H (a & c & v & l & -> & A & B). exists a, c, v, l. split; [reflexivity|]. split; [unfold tells; rewrite H; exact A|]. intros e I. rewrite (same_applies e h h' H). exact (B e I). Qed.
Lemma latest_one es h n m : latest es h n -> latest es h m -> n = m.
Proof. intros A B. apply (pick_latest _ _ _ None) in A. apply (pick_latest _ _ _ None) in B. congruence. Qed.
Lemma two_inj {A} (p q : list A) a b c d : p ++ [a; b] = q ++ [c; d] -> p = q /\ a = c /\ b = d.
Proof. intros E. change (p ++ [a; b]) with (p ++ [a] ++ [b]) in E. change (q ++ [c; d]) with (q ++ [c] ++ [d]) in E. rewrite !app_assoc in E. apply app_inj_tail in E as [E ->]. apply app_inj_tail in E as [-> ->]. auto. Qed.
Theorem many_round_trip us es n pre h w body w' bs h0 t : Forall allowed es -> latest es h n ->
  u_to (us n) w = Ok body -> u_from (us n) body = Ok (w', []) ->
  pre ++ [h; HRaw body] = h0 :: t -> chained (h0 :: t) -> Forall wf_hdr (h0 :: t) ->
  reg_bytes (register_all us es) (map LH (pre ++ [h]) ++ [UH n w]) = Ok bs ->
  exists sent q, pkt_to_bytes (pre ++ [h; HRaw body]) = Ok (sent ++ [HRaw body], bs) /\ Forall2 read_as sent q /\
    reg_parse (register_all us es) bs (L (class_of h0)) = Ok (map LH q ++ [UH n w']).
Proof.
  intros A La Hto Hfrom Hx Hc Hw Hb. unfold reg_bytes in Hb. rewrite plain_app, plain_lib in Hb. cbn [bindr plain] in Hb.
  rewrite (gd_user _ _ (all_good us es A)), Hto in Hb. cbn [bindr] in Hb. rewrite <- app_assoc in Hb. cbn [app] in Hb.
  destruct (pkt_to_bytes (pre ++ [h; HRaw body])) as [[p' b]|] eqn:P; [|discriminate]. cbn [bindr] in Hb. apply ok_inj in Hb. subst b.
  pose proof (fun c => ser_number c _ _ _ _ P) as N1.
  assert (P2 : pkt_to_bytes (h0 :: t) = Ok (p', bs)) by (rewrite <- Hx; exact P).
  destruct (packet_round_trip h0 t p' bs Hc Hw P2) as (q & Q1 & Q2).
  destruct (f2_tail _ _ _ _ _ (N1 CEth)) as (s1 & h1 & r1 & -> & _ & _ & [_ Er]). specialize (Er body eq_refl). subst r1.
  assert (Nh : forall c, number c h1 = number c h).
  { intros c. destruct (f2_tail _ _ _ _ _ (N1 c)) as (s2 & k2 & r2 & E & _ & [X _] & _). apply two_inj in E as (_ & -> & _). exact X. }
  destruct (f2_tail _ _ _ _ _ Q2) as (q1 & h2 & r2 & -> & B & C & D). assert (r2 = HRaw body) by (exact (proj2 (read_number CEth _ _ D) body eq_refl)). subst r2.
  exists (s1 ++ [h1]), (q1 ++ [h2]). split; [rewrite <- app_assoc; reflexivity|]. split; [apply Forall2_app; [exact B|constructor; [exact C|constructor]]|].
  assert (L2 : latest es h2 n) by (apply (same_latest es h h2); [intros c; rewrite (proj1 (read_number c _ _ C)); apply Nh|exact La]).
  pose proof (many_parse us es bs (class_of h0) A) as X. rewrite Q1 in X. specialize (X ltac:(discriminate)).
  destruct X as [[X _]|(pre' & h' & b' & m & E & _ & L' & X)].
  { exfalso. destruct (latest_in _ _ _ L2) as (c & v & I & T). apply (X h2 (c, v, n)); [apply in_or_app; right; now left|exact I|exact T]. }
  assert (H0 : pre' = q1 /\ h' = h2 /\ b' = body).
  { destruct b' as [|y s]; cbn [payload] in E.
    - change (q1 ++ [h2; HRaw body]) with (q1 ++ [h2] ++ [HRaw body]) in E. rewrite app_assoc in E. apply app_inj_tail in E as [_ E]. subst h'. exfalso.
      destruct (latest_in _ _ _ L') as (c & v & I & T). rewrite Forall_forall in A. pose proof (proj1 (A _ I) : registrable c) as R. exact (not_raw c v body R T).
    - apply two_inj in E as (-> & -> & E). repeat split; congruence. }
  destruct H0 as (-> & -> & ->). pose proof (latest_one _ _ _ _ L2 L'). subst m. rewrite Hfrom in X. exact X.
Qed.
