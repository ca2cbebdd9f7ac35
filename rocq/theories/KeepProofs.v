From Verif Require Import BaseLemmas Dict DictLemmas RipModel PacketModel RipProofs PacketOps TestModel FieldModel AliasModel AliasSpec AliasProofs KeepModel KeepSpec.
#[local] Open Scope nat_scope.

Lemma copy_sound s p : sound s -> sound (fst (step s (OCopy p))) /\ (forall q, q <> List.length (st_pkts s) -> share_no_header (fst (step s (OCopy p))) q (List.length (st_pkts s))) /\
  List.length (st_pkts (fst (step s (OCopy p)))) = S (List.length (st_pkts s)).
Proof.
  intros Sd. cbn [step]. destruct (copy_refs (st_objs s) [] (refs s p)) as [o' l] eqn:K. destruct (copy_refs_grow _ _ _ _ _ K) as (k & -> & H); [discriminate|].
  assert (Fr : forall c, In c l -> List.length (st_objs s) <= c < List.length (st_objs s ++ k)) by (intros c Hc; destruct (H c Hc) as [[? [=]]|H']; exact H').
  split; [|split].
  - intros q a. rewrite refs_new. cbn [new_pkt fst st_objs]. destruct (q =? _); [intros Q; now apply Fr|]. intros Q. rewrite app_length. specialize (Sd q a Q). lia.
  - intros q Nq a. rewrite !refs_new, Nat.eqb_refl. apply Nat.eqb_neq in Nq. rewrite Nq. intros Q Hl. specialize (Sd q a Q). apply Fr in Hl. lia.
  - cbn. rewrite app_length. cbn. lia.
Qed.
Definition aops (a : astep) : list op := match a with ADo o => [o] | AIn _ _ _ => [] | AOut args _ _ _ => map (fun dp => OCopy (snd dp)) args end.
Lemma run_app s a b : run s (a ++ b) = run (run s a) b.
Proof. revert s. induction a as [|o a IH]; intros s; [reflexivity|]. cbn [app run]. apply IH. Qed.
Lemma out_refs_run : forall args s ex wc ps d, fst (out_refs s args ex wc ps d) = run s (map (fun dp => OCopy (snd dp)) args).
Proof. induction args as [|[dev p] t IH]; intros; [reflexivity|]. cbn [out_refs map run snd]. apply IH. Qed.
Lemma authors_run : forall l k, k_store (authors k l) = run (k_store k) (flat_map aops l).
Proof. induction l as [|a l IH]; intros k; [reflexivity|]. cbn [authors flat_map]. rewrite IH, run_app. f_equal. destruct a as [o|dev p rules|args ex wc ps]; [reflexivity|reflexivity|].
  cbn [author aops]. rewrite <- (out_refs_run args (k_store k) ex wc ps []). destruct (out_refs _ _ _ _ _ _); reflexivity. Qed.
Lemma leaves_aops s y l : Forall (author_leaves s y) l -> Forall (fun o => ~ In y (names_pkts o) /\ forall a, In a (refs s y) -> ~ In a (names_objs o)) (flat_map aops l).
Proof. induction 1 as [|a l H F IH]; [constructor|]. cbn [flat_map]. apply Forall_app. split; [|exact IH].
  destruct a as [o|dev p rules|args ex wc ps]; cbn [aops author_leaves] in *; [constructor; [|constructor]; exact H|constructor|].
  apply Forall_forall. intros o Q. apply in_map_iff in Q as ([d p] & <- & Q). cbn [names_pkts names_objs snd]. split; [|intros ? _ []]. intros [->|[]]. apply H. apply in_map_iff. exists (d, y). auto. Qed.

(** The reference of each device is the copy made for its last argument. *)
Lemma out_refs_spec : forall args s ex wc ps d dev m, sound s -> (forall dp, In dp args -> snd dp < List.length (st_pkts s)) ->
  dget dev (snd (out_refs s args ex wc ps d)) = Some m ->
  (dget dev d = Some m /\ ~ In dev (map fst args)) \/
  exists pre p suf, args = pre ++ (dev, p) :: suf /\ ~ In dev (map fst suf) /\ w_ref m = List.length (st_pkts s) + List.length pre /\
    (forall y, y < List.length (st_pkts s) -> content (run s (map (fun dp => OCopy (snd dp)) pre)) y = content s y) /\
    sound (run s (map (fun dp => OCopy (snd dp)) pre)) /\ List.length (st_pkts (run s (map (fun dp => OCopy (snd dp)) pre))) = List.length (st_pkts s) + List.length pre.
Proof.
  induction args as [|[d0 p0] args IH]; intros s ex wc ps d dev m Sd V; cbn [out_refs]; [left; cbn; auto|].
  destruct (copy_sound s p0 Sd) as (Sd1 & _ & L1). intros G. apply IH in G; [|exact Sd1|intros dp Q; rewrite L1; specialize (V dp (or_intror Q)); lia].
  destruct G as [[G N]|(pre & p & suf & -> & N & W & C & Sd2 & L2)].
  - destruct (str_eqb dev d0) eqn:E.
    + apply String.eqb_eq in E. subst d0. right. rewrite dget_dset_same in G. injection G as <-. exists [], p0, args. cbn [app map w_ref List.length run]. repeat apply conj; auto; lia.
    + left. rewrite dget_dset_other in G by (intros ->; unfold str_eqb in E; rewrite String.eqb_refl in E; discriminate). split; [exact G|]. cbn [map fst]. intros [->|Q]; [unfold str_eqb in E; rewrite String.eqb_refl in E; discriminate|contradiction].
  - right. exists ((d0, p0) :: pre), p, suf. cbn [app map run snd List.length]. rewrite L1 in *. repeat apply conj; auto; try lia.
    intros y Ly. rewrite C by lia. destruct (copy_made s p0 Sd) as (s' & St & _ & H). rewrite St. apply H. exact Ly.
Qed.
Lemma expected_kept k args ex wc ps post dev m :
  sound (k_store k) -> (forall dp, In dp args -> snd dp < List.length (st_pkts (k_store k))) ->
  let k1 := author k (AOut args ex wc ps) in
  (exists d, k_pend k1 = k_pend k ++ [KOut d []] /\ dget dev d = Some m) ->
  Forall (author_leaves (k_store k1) (w_ref m)) post ->
  exists pre p suf, args = pre ++ (dev, p) :: suf /\ ~ In dev (map fst suf) /\ content (k_store (authors k1 post)) (w_ref m) = content (k_store k) p.
Proof.
  intros Sd V k1 (d & Pk & G) F. unfold k1 in *. cbn [author] in *. destruct (out_refs (k_store k) args ex wc ps []) as [s1 d1] eqn:O.
  cbn [k_pend k_store] in *. apply app_inv_head in Pk. injection Pk as ->.
  assert (G2 := out_refs_spec args (k_store k) ex wc ps [] dev m Sd V). rewrite O in G2. cbn [snd] in G2. specialize (G2 G).
  destruct G2 as [[G2 _]|(pre & p & suf & -> & N & W & C & Sd2 & L2)]; [discriminate|]. exists pre, p, suf. split; [reflexivity|]. split; [exact N|].
  assert (R1 : s1 = run (k_store k) (map (fun dp => OCopy (snd dp)) (pre ++ (dev, p) :: suf))) by (rewrite <- (out_refs_run _ _ ex wc ps []), O; reflexivity).
  rewrite map_app, run_app in R1. cbn [map snd run] in R1. set (s0 := run (k_store k) (map (fun dp => OCopy (snd dp)) pre)) in *.
  destruct (copy_sound s0 p Sd2) as (Sb & Un & Lb). rewrite <- L2 in W. rewrite <- W in Un, Lb.
  destruct (copy_made s0 p Sd2) as (s' & St & Cn & _). set (sb := fst (step s0 (OCopy p))) in *. assert (s' = sb) by (unfold sb; rewrite St; reflexivity). subst s'. rewrite <- W in Cn.
  assert (Vp : p < List.length (st_pkts (k_store k))) by (apply (V (dev, p)), in_or_app; right; now left).
  set (cs := map (fun dp : str * nat => OCopy (snd dp)) suf) in *.
  assert (Fs : Forall (fun o => ~ In (w_ref m) (names_pkts o) /\ forall a, In a (refs sb (w_ref m)) -> ~ In a (names_objs o)) cs).
  { apply Forall_forall. intros o Q. unfold cs in Q. apply in_map_iff in Q as ([d2 p2] & <- & Q). cbn [names_pkts names_objs snd]. split; [|intros ? _ []]. intros [E|[]].
    assert (p2 < List.length (st_pkts (k_store k))) by (apply (V (d2, p2)), in_or_app; right; now right). lia. }
  destruct (kept sb (w_ref m) Sb ltac:(lia) Un cs Fs) as [_ Rr]. rewrite <- R1 in Rr.
  apply leaves_aops in F. rewrite Rr in F. rewrite authors_run. cbn [k_store]. rewrite R1, <- run_app.
  destruct (kept sb (w_ref m) Sb ltac:(lia) Un (cs ++ flat_map aops post)) as [Ck _]; [apply Forall_app; auto|]. rewrite Ck, Cn. apply C. exact Vp.
Qed.

(** ** Receiving *)
Lemma first_ref_spec objs c : forall l,
  match first_ref objs l c with
  | Some a => exists pre post, l = pre ++ a :: post /\ (forall x, In x pre -> isinst (obj objs x) c = false) /\ isinst (obj objs a) c = true
  | None => True
  end.
Proof. induction l as [|a l IH]; cbn [first_ref]; [exact I|]. destruct (isinst (obj objs a) c) eqn:E; [exists [], l; repeat split; auto; intros ? []|].
  destruct (first_ref objs l c) as [b|]; [|exact I]. destruct IH as (pre & post & -> & H1 & H2). exists (a :: pre), post. repeat split; auto. intros x [<-|Q]; auto. Qed.
Lemma parse_fresh s raw c s' q : sound s -> step s (OParse raw c) = (s', NewPkt q) ->
  q = List.length (st_pkts s) /\ sound s' /\ NoDup (refs s' q) /\ (forall a, In a (refs s' q) -> List.length (st_objs s) <= a) /\ pkt_new raw c = Ok (content s' q) /\
  (forall y, y < q -> refs s' y = refs s y /\ content s' y = content s y) /\ List.length (st_pkts s') = S q.
Proof.
  intros Sd St. cbn [step] in St. destruct (pkt_new raw c) as [hs|] eqn:P; [|discriminate]. destruct (parse_made s raw c hs Sd P) as (s2 & St2 & Cn & Oth).
  cbn [step] in St2. rewrite P in St2. rewrite St in St2. injection St2 as <- ->. injection St as <-.
  split; [reflexivity|]. assert (Rq : forall q, refs (mkStore (st_objs s ++ hs) (st_pkts s ++ [seq (List.length (st_objs s)) (List.length hs)])) q = if q =? List.length (st_pkts s) then seq (List.length (st_objs s)) (List.length hs) else refs s q) by (intros q; apply (refs_new (st_objs s ++ hs) (st_pkts s) (seq (List.length (st_objs s)) (List.length hs)) q)).
  split; [|split; [|split; [|split; [|split]]]].
  - intros p a. rewrite Rq. cbn [st_objs]. rewrite app_length. destruct (p =? _); intros Q; [apply in_seq in Q; lia|]. specialize (Sd p a Q). lia.
  - rewrite Rq, Nat.eqb_refl. apply seq_NoDup.
  - intros a. rewrite Rq, Nat.eqb_refl. intros Q. apply in_seq in Q. lia.
  - f_equal. symmetry. exact Cn.
  - intros y Ly. rewrite Rq. replace (y =? List.length (st_pkts s)) with false by (symmetry; apply Nat.eqb_neq; lia). split; [reflexivity|]. now apply Oth.
  - cbn [st_pkts]. rewrite app_length. cbn. lia.
Qed.
Lemma assign_keeps s a h : st_pkts (fst (step s (OAssign a h))) = st_pkts s /\ List.length (st_objs (fst (step s (OAssign a h)))) = List.length (st_objs s).
Proof. cbn. split; [reflexivity|apply set_nth_length]. Qed.
Lemma copy_all_frame : forall rs s last q s' r, copy_all s last q rs = (s', r) ->
  st_pkts s' = st_pkts s /\ List.length (st_objs s') = List.length (st_objs s) /\ forall a, ~ In a (refs s q) -> obj (st_objs s') a = obj (st_objs s) a.
Proof.
  induction rs as [|x rs IH]; intros s last q s' r; cbn [copy_all]; [intros [= <- <-]; auto|].
  destruct (copy_one s last q x) as [s1|e] eqn:C; [|intros [= <- <-]; auto]. intros H. apply IH in H as (A & B & D).
  unfold copy_one, bindr in C. destruct (lastout s last x) as [v|]; [|discriminate]. assert (Fr := first_ref_spec (st_objs s) (r_to x) (refs s q)).
  destruct (first_ref (st_objs s) (refs s q) (r_to x)) as [a|]; [|destruct v; discriminate]. destruct v as [v|]; [|discriminate].
  destruct (set _ _ _) as [h|]; [|discriminate]. injection C as <-. cbn [step fst st_pkts st_objs] in *. rewrite set_nth_length in B. destruct Fr as (pre & post & E & _).
  unfold refs in *. cbn [st_pkts] in D. split; [exact A|]. split; [exact B|]. intros b N. rewrite D by exact N. apply obj_set_other. intros ->. apply N. rewrite E. apply in_or_app. right. now left.
Qed.
Lemma recv_inv k k' dev q : k_recv k = (k', Ok (dev, q)) -> exists p first rules rest s1 b s2,
  k_pend k = KIn dev p first rules :: rest /\ step (k_store k) (OSer p) = (s1, Sent b) /\
  step s1 (OParse b (match first with Some c => c | None => CEth end)) = (s2, NewPkt q) /\ copy_all s2 (k_last k) q rules = (k_store k', Ok tt).
Proof.
  unfold k_recv. destruct (k_pend k) as [|[d p first rules|w seen] rest] eqn:P; try discriminate.
  destruct (step (k_store k) (OSer p)) as [s1 [| | |b|e]] eqn:S; try discriminate.
  destruct (step s1 (OParse b _)) as [s2 [| |q2| |e]] eqn:S2; try discriminate. destruct (copy_all s2 (k_last k) q2 rules) as [s3 [[]|e]] eqn:C; try discriminate.
  intros [= <- <- <-]. exists p, first, rules, rest, s1, b, s2. auto.
Qed.
Lemma ser_sound s p s1 a : sound s -> step s (OSer p) = (s1, a) -> sound s1 /\ st_pkts s1 = st_pkts s /\ (forall y, share_no_header s p y -> content s1 y = content s y).
Proof.
  intros Sd. cbn [step]. destruct (ser_refs _ _ _ _) as [o r] eqn:K. apply ser_refs_frame in K as [L F]. intros [= <- _]. split; [intros q x Q; cbn; rewrite L; now apply (Sd q)|]. split; [reflexivity|].
  intros y Dj. unfold content, refs at 1. cbn [st_objs st_pkts]. fold (refs s y). apply map_ext_in. intros x Q. apply F. intros X. apply in_rev in X. exact (Dj x X Q). Qed.
Lemma delivered k k' dev q : sound (k_store k) -> k_recv k = (k', Ok (dev, q)) ->
  q = List.length (st_pkts (k_store k)) /\ forall y, y < q -> unaffected (k_store k') q y /\ unaffected (k_store k') y q.
Proof.
  intros Sd R. destruct (recv_inv _ _ _ _ R) as (p & first & rules & rest & s1 & b & s2 & P & S1 & S2 & C).
  destruct (ser_sound _ _ _ _ Sd S1) as (Sd1 & Pk1 & _). destruct (parse_fresh _ _ _ _ _ Sd1 S2) as (Eq & Sd2 & _ & Fr & _ & Old & Ln).
  destruct (copy_all_frame _ _ _ _ _ _ C) as (Pk3 & L3 & _).
  assert (Sd3 : sound (k_store k')) by (intros y a Q; rewrite L3; unfold refs in Q; rewrite Pk3 in Q; now apply (Sd2 y)).
  assert (Re : forall y, refs (k_store k') y = refs s2 y) by (intros y; unfold refs; now rewrite Pk3).
  split; [rewrite Eq; now rewrite Pk1|]. intros y Ly. assert (Le : List.length (st_pkts (k_store k')) = S q) by (rewrite Pk3; exact Ln).
  assert (Dj : forall a, In a (refs s2 q) -> In a (refs s2 y) -> False) by (intros a A B; apply Fr in A; rewrite (proj1 (Old y Ly)) in B; specialize (Sd1 y a B); lia).
  split; apply isolated; try exact Sd3; try lia; intros a; rewrite !Re; intros A B; [exact (Dj a A B)|exact (Dj a B A)].
Qed.
(** ** copyfromlastout *)
Lemma set_content s q a h pre post : NoDup (refs s q) -> a < List.length (st_objs s) -> refs s q = pre ++ a :: post ->
  content (fst (step s (OAssign a h))) q = map (obj (st_objs s)) pre ++ h :: map (obj (st_objs s)) post.
Proof.
  intros N L E. cbn [step fst]. unfold content, refs at 1. cbn [st_pkts st_objs]. fold (refs s q). rewrite E in *. rewrite map_app. cbn [map]. apply NoDup_remove in N as [_ N].
  f_equal; [|f_equal]; [|now apply obj_set_same|]; apply map_ext_in; intros x X; apply obj_set_other; intros ->; apply N, in_or_app; auto. Qed.
Lemma copied last sent q : forall rs s s',
  sound s -> NoDup (refs s q) -> q < List.length (st_pkts s) ->
  (forall d p, dget d last = Some p -> share_no_header s q p /\ dget d sent = Some (content s p)) ->
  copy_all s (Some last) q rs = (s', Ok tt) -> all_assigned sent rs (content s q) (content s' q).
Proof.
  induction rs as [|r rs IH]; intros s s' Sd N Lq Hs; cbn [copy_all]; [intros [= <-]; constructor|].
  destruct (copy_one s (Some last) q r) as [s1|e] eqn:C; [|discriminate]. intros H.
  unfold copy_one, bindr in C. destruct (lastout s (Some last) r) as [v|] eqn:Lo; [|discriminate]. assert (Fr := first_ref_spec (st_objs s) (r_to r) (refs s q)).
  destruct (first_ref (st_objs s) (refs s q) (r_to r)) as [a|]; [|destruct v; discriminate]. destruct v as [v|]; [|discriminate].
  destruct (set (obj (st_objs s) a) (r_set r) (aval_of v)) as [h|] eqn:St; [|discriminate]. injection C as <-. destruct Fr as (pre & post & E & Np & Is).
  assert (La : a < List.length (st_objs s)) by (apply (Sd q); rewrite E; apply in_or_app; right; now left).
  eapply OneRule with (v := v).
  - unfold sent_value. cbn [lastout] in Lo. destruct (dget (r_dev r) last) as [p|] eqn:G; [|discriminate]. destruct (Hs _ _ G) as [_ ->]. destruct (pkt_get_header _ _) as [h0|]; [|discriminate].
    destruct (get h0 (r_attr r)); [|discriminate]. now injection Lo as ->.
  - econstructor; [unfold content; rewrite E, map_app; reflexivity|exact (set_content s q a h pre post N La E)| |exact Is|exact St].
    intros x X. apply in_map_iff in X as (y & <- & Y). now apply Np.
  - apply IH in H; [exact H| | | |].
    + intros y b Q. cbn [step fst st_objs]. rewrite set_nth_length. now apply (Sd y).
    + exact N.
    + exact Lq.
    + intros d p G. destruct (Hs d p G) as [Dj Sn]. split; [exact Dj|]. rewrite Sn. f_equal. cbn [step fst]. unfold content, refs at 2. cbn [st_objs st_pkts]. fold (refs s p). apply map_ext_in. intros x X.
      symmetry. apply obj_set_other. intros ->. apply (Dj x); [|exact X]. rewrite E. apply in_or_app. right. now left.
Qed.
Lemma received_copied k k' dev p first rules rest q last sent : sound (k_store k) ->
  k_pend k = KIn dev p first rules :: rest -> k_last k = Some last ->
  (forall d pl, dget d last = Some pl -> pl < List.length (st_pkts (k_store k)) /\ share_no_header (k_store k) p pl /\ dget d sent = Some (content (k_store k) pl)) ->
  k_recv k = (k', Ok (dev, q)) ->
  exists b hs, snd (step (k_store k) (OSer p)) = Sent b /\ pkt_new b (match first with Some c => c | None => CEth end) = Ok hs /\
    all_assigned sent rules hs (content (k_store k') q).
Proof.
  intros Sd P La Hs R. destruct (recv_inv _ _ _ _ R) as (p2 & first2 & rules2 & rest2 & s1 & b & s2 & P2 & S1 & S2 & C). rewrite P in P2. injection P2 as <- <- <- <-.
  destruct (ser_sound _ _ _ _ Sd S1) as (Sd1 & Pk1 & Un). destruct (parse_fresh _ _ _ _ _ Sd1 S2) as (Eq & Sd2 & N & Fr & Pn & Old & Ln).
  exists b, (content s2 q). rewrite S1. split; [reflexivity|]. split; [exact Pn|]. rewrite La in C. apply (copied last sent q rules s2 (k_store k') Sd2 N); [lia| |exact C].
  intros d pl G. destruct (Hs d pl G) as (Lp & Dj & ->). assert (pl < q) by (rewrite Eq, Pk1; exact Lp). destruct (Old pl H) as [Ro Co]. split.
  - intros a A B. apply Fr in A. rewrite Ro in B. specialize (Sd1 pl a B). lia.
  - f_equal. rewrite Co. symmetry. apply Un. exact Dj.
Qed.
