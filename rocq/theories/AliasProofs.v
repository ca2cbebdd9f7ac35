From Verif Require Import BaseLemmas RipModel PacketModel RipProofs PacketOps AliasModel AliasSpec.
#[local] Open Scope nat_scope.

Lemma obj_app o l a : a < length o -> obj (o ++ l) a = obj o a.
Proof. intros H. unfold obj. now rewrite app_nth1. Qed.
Lemma obj_set_other a b h o : a <> b -> obj (set_nth a h o) b = obj o b.
Proof. unfold obj. intros H.
  assert (E := set_nth_other a b h o H). destruct (nth_error o b) eqn:N.
  - apply (nth_error_nth _ _ HNullHdr) in E. apply (nth_error_nth _ _ HNullHdr) in N. congruence.
  - apply nth_error_None in E. apply nth_error_None in N. now rewrite !nth_overflow.
Qed.
Lemma obj_set_same a h o : a < length o -> obj (set_nth a h o) a = h.
Proof. intros H. unfold obj. apply nth_error_nth. now apply set_nth_same. Qed.

Lemma add_ref_grow o a o' c : add_ref o a = (o', c) -> exists l, o' = o ++ l /\ (c = a \/ length o <= c) /\ (c < length o' \/ c = a).
Proof. unfold add_ref. destruct (obj o a); intros [= <- <-]; first [exists []; rewrite app_nil_r; auto; fail|eexists; split; [reflexivity|]; rewrite app_length; cbn; lia]. Qed.
Lemma add_refs_grow : forall l o o' r, add_refs o l = (o', r) -> exists k, o' = o ++ k /\ forall c, In c r -> In c l \/ (length o <= c < length o').
Proof.
  induction l as [|a l IH]; intros o o' r; cbn [add_refs]; [intros [= <- <-]; exists []; rewrite app_nil_r; split; [reflexivity|intros ? []]|].
  destruct (add_ref o a) as [o1 c1] eqn:A. destruct (add_refs o1 l) as [o2 r2] eqn:B. intros [= <- <-].
  apply IH in B as (k2 & -> & B). destruct (add_ref_grow _ _ _ _ A) as (k1 & -> & C & D). exists (k1 ++ k2). rewrite app_assoc. split; [reflexivity|].
  rewrite !app_length in *. intros c [<-|H]; [destruct C as [->|C]; [now left; left|destruct D as [D| ->]; [right; lia|now left; left]]|].
  destruct (B _ H) as [H'|H']; [left; now right|right; lia]. Qed.
Lemma copy_refs_grow : forall l o memo o' r, copy_refs o memo l = (o', r) -> (forall k c, memo_get memo k = Some c -> c < length o) ->
  exists k, o' = o ++ k /\ (forall c, In c r -> (exists a, memo_get memo a = Some c) \/ length o <= c < length o').
Proof.
  induction l as [|a l IH]; intros o memo o' r; cbn [copy_refs]; [intros [= <- <-] _; exists []; rewrite app_nil_r; split; [reflexivity|intros ? []]|].
  destruct (memo_get memo a) as [c|] eqn:M.
  - destruct (copy_refs o memo l) as [o2 r2] eqn:B. intros [= <- <-] W. destruct (IH _ _ _ _ B W) as (k & -> & H). exists k. split; [reflexivity|].
    intros x [<-|X]; [left; now exists a|auto].
  - destruct (copy_refs (o ++ [obj o a]) ((a, length o) :: memo) l) as [o2 r2] eqn:B. intros [= <- <-] W.
    destruct (IH _ _ _ _ B) as (k & -> & H).
    { intros k c. cbn [memo_get]. rewrite app_length. cbn [length]. destruct (k =? a); [intros [= <-]; lia|intros E; apply W in E; lia]. }
    exists ([obj o a] ++ k). rewrite app_assoc. split; [reflexivity|]. rewrite !app_length in *. cbn [length] in *.
    intros x [<-|X]; [right; lia|]. destruct (H _ X) as [[b E]|E]; [|right; lia]. cbn [memo_get] in E. destruct (b =? a); [injection E as <-; right; lia|left; now exists b].
Qed.
(** The copies hold the values of the originals. *)
Lemma copy_refs_values : forall l o memo o' r, copy_refs o memo l = (o', r) -> (forall a, In a l -> a < length o) ->
  (forall k c, memo_get memo k = Some c -> c < length o /\ obj o c = obj o k /\ k < length o) -> map (obj o') r = map (obj o) l.
Proof.
  induction l as [|a l IH]; intros o memo o' r; cbn [copy_refs]; [intros [= <- <-]; reflexivity|].
  destruct (memo_get memo a) as [c|] eqn:M.
  - destruct (copy_refs o memo l) as [o2 r2] eqn:B. intros [= <- <-] V W. cbn [map]. rewrite (IH _ _ _ _ B); [|intros; apply V; now right|exact W]. f_equal.
    destruct (copy_refs_grow _ _ _ _ _ B) as (k & -> & _); [intros x y E; now apply W in E|]. destruct (W _ _ M) as (L & E & _). now rewrite obj_app.
  - destruct (copy_refs (o ++ [obj o a]) ((a, length o) :: memo) l) as [o2 r2] eqn:B. intros [= <- <-] V W.
    assert (W2 : forall k c, memo_get ((a, length o) :: memo) k = Some c -> c < length (o ++ [obj o a]) /\ obj (o ++ [obj o a]) c = obj (o ++ [obj o a]) k /\ k < length (o ++ [obj o a])).
    { assert (Va := V a (or_introl eq_refl)). intros k c. cbn [memo_get]. rewrite app_length. cbn [length]. destruct (k =? a) eqn:K.
      - apply Nat.eqb_eq in K. subst k. intros [= <-]. split; [lia|]. split; [|lia]. rewrite (obj_app _ _ a Va). unfold obj. rewrite app_nth2, Nat.sub_diag by lia. reflexivity.
      - intros E. apply W in E as (A & C & D). split; [lia|]. split; [|lia]. now rewrite !obj_app. }
    cbn [map]. rewrite (IH _ _ _ _ B); [| |exact W2].
    + f_equal.
      * destruct (copy_refs_grow _ _ _ _ _ B) as (k & -> & _); [intros x y E; now apply W2 in E|].
        rewrite obj_app by (rewrite app_length; cbn; lia). unfold obj at 1. rewrite app_nth2, Nat.sub_diag by lia. reflexivity.
      * apply map_ext_in. intros x X. apply obj_app. apply V. now right.
    + intros x X. rewrite app_length. assert (x < length o) by (apply V; now right). lia.
Qed.
Lemma ser_refs_frame : forall todo objs all raw o' r, ser_refs objs all todo raw = (o', r) ->
  length o' = length objs /\ forall a, ~ In a todo -> obj o' a = obj objs a.
Proof.
  induction todo as [|x t IH]; intros objs all raw o' r; cbn [ser_refs]; [intros [= <- <-]; auto|].
  destruct (pre_ser raw _ _) as [h1|e]; [|intros [= <- <-]; auto].
  destruct (hdr_bytes h1) as [b|e].
  - intros H. apply IH in H as [L F]. rewrite set_nth_length in L. split; [exact L|]. intros a N. rewrite F by (intros Q; apply N; now right). apply obj_set_other. intros ->. apply N. now left.
  - intros [= <- <-]. split; [apply set_nth_length|]. intros a N. apply obj_set_other. intros ->. apply N. now left.
Qed.

Lemma refs_set s p l q : refs (with_refs s p l) q = if (p =? q) && (q <? length (st_pkts s)) then l else refs s q.
Proof. unfold refs, with_refs. cbn [st_pkts]. destruct (p =? q) eqn:E; cbn [andb].
  - apply Nat.eqb_eq in E. subst q. destruct (p <? length (st_pkts s)) eqn:L.
    + apply Nat.ltb_lt in L. apply nth_error_nth. now apply set_nth_same.
    + apply Nat.ltb_ge in L. rewrite !nth_overflow; [reflexivity|lia|rewrite set_nth_length; lia].
  - apply Nat.eqb_neq in E. assert (H := set_nth_other p q l (st_pkts s) E). destruct (nth_error (st_pkts s) q) eqn:N.
    + apply (nth_error_nth _ _ []) in H. apply (nth_error_nth _ _ []) in N. congruence.
    + apply nth_error_None in H. apply nth_error_None in N. now rewrite !nth_overflow.
Qed.
Lemma refs_new o pk l q : refs (fst (new_pkt o pk l)) q = if q =? length pk then l else nth q pk [].
Proof. unfold refs, new_pkt. cbn [fst st_pkts]. destruct (q =? length pk) eqn:E.
  - apply Nat.eqb_eq in E. subst q. rewrite app_nth2, Nat.sub_diag by lia. reflexivity.
  - apply Nat.eqb_neq in E. destruct (Nat.lt_ge_cases q (length pk)); [now rewrite app_nth1|]. rewrite !nth_overflow; [reflexivity|lia|rewrite app_length; cbn; lia].
Qed.

(** The packets ([mine]) and objects ([owned]) a program may name; what is made later is among them. *)
Section Region.
Variables (n0 m0 : nat) (mine owned : nat -> Prop).
Hypothesis new_mine : forall p, m0 <= p -> mine p.
Hypothesis new_owned : forall a, n0 <= a -> owned a.
(** Packets of the program refer to objects of the program; the rest is as it was. *)
Lemma old_obj a : ~ owned a -> a < n0.
Proof. intros N. destruct (Nat.lt_ge_cases a n0); [assumption|]. exfalso. now apply N, new_owned. Qed.
Definition inv (s0 s : store) : Prop :=
  n0 <= length (st_objs s) /\ m0 <= length (st_pkts s) /\ (forall p a, mine p -> In a (refs s p) -> owned a) /\
  (forall p, ~ mine p -> refs s p = refs s0 p) /\ (forall a, ~ owned a -> obj (st_objs s) a = obj (st_objs s0) a).

(** Changing the references of a packet of the program, objects growing. *)
Lemma inv_refs s0 s p l k : inv s0 s -> mine p -> (forall a, In a l -> owned a) -> inv s0 (with_refs (mkStore (st_objs s ++ k) (st_pkts s)) p l).
Proof.
  intros (A & B & C & D & E) Hp Hl. unfold inv. split; [cbn; rewrite app_length; lia|]. split; [cbn; rewrite set_nth_length; lia|]. split; [|split].
  - intros q a Q. rewrite refs_set. destruct (_ && _); [apply Hl|apply (C q a Q)].
  - intros q Q. rewrite refs_set. destruct (p =? q) eqn:F; [apply Nat.eqb_eq in F; subst q; contradiction|]. cbn [andb]. now apply D.
  - intros a N. cbn [with_refs st_objs]. rewrite obj_app by (apply old_obj in N; lia). now apply E.
Qed.
Lemma inv_refs0 s0 s p l : inv s0 s -> mine p -> (forall a, In a l -> owned a) -> inv s0 (with_refs s p l).
Proof. intros I Hp Hl. replace (with_refs s p l) with (with_refs (mkStore (st_objs s ++ []) (st_pkts s)) p l); [now apply inv_refs|]. now rewrite app_nil_r; destruct s. Qed.
Lemma inv_new s0 s l k : inv s0 s -> (forall a, In a l -> owned a) -> inv s0 (fst (new_pkt (st_objs s ++ k) (st_pkts s) l)).
Proof.
  intros (A & B & C & D & E) Hl. unfold inv. split; [cbn; rewrite app_length; lia|]. split; [cbn; rewrite app_length; lia|]. split; [|split].
  - intros q a Q. rewrite refs_new. destruct (q =? _); [apply Hl|apply (C q a Q)].
  - intros q Q. rewrite refs_new. destruct (q =? _) eqn:F; [|now apply D]. apply Nat.eqb_eq in F. exfalso. apply Q, new_mine. lia.
  - intros a N. cbn [new_pkt fst st_objs]. rewrite obj_app by (apply old_obj in N; lia). now apply E.
Qed.
Lemma inv_objs s0 s o' : inv s0 s -> length o' = length (st_objs s) -> (forall a, ~ owned a -> obj o' a = obj (st_objs s) a) -> inv s0 (mkStore o' (st_pkts s)).
Proof. intros (A & B & C & D & E) L F. unfold inv, refs in *. cbn [st_objs st_pkts] in *. split; [lia|]. split; [exact B|]. split; [exact C|]. split; [exact D|].
  intros a N. rewrite F; [now apply E|exact N]. Qed.

Lemma inv_step s0 s o : inv s0 s -> (forall p, In p (names_pkts o) -> mine p) -> (forall a, In a (names_objs o) -> owned a) -> inv s0 (fst (step s o)).
Proof.
  intros I Hp Ho. pose proof I as (A & B & C & D & E).
  assert (Own : forall p, mine p -> forall a, In a (refs s p) -> owned a) by (intros p Q a; now apply C).
  assert (Big : forall a, length (st_objs s) <= a -> owned a) by (intros a Q; apply new_owned; lia).
  assert (Copy : forall p o' r, mine p -> copy_refs (st_objs s) [] (refs s p) = (o', r) -> exists k, o' = st_objs s ++ k /\ forall c, In c r -> owned c).
  { intros p o' r Q K. destruct (copy_refs_grow _ _ _ _ _ K) as (k & -> & H); [discriminate|]. exists k. split; [reflexivity|]. intros c X. destruct (H c X) as [[? [=]]|H']. apply Big. lia. }
  assert (AddR : forall k a o' c, owned a -> add_ref (st_objs s ++ k) a = (o', c) -> exists k', o' = st_objs s ++ k' /\ owned c).
  { intros k a o' c Q K. destruct (add_ref_grow _ _ _ _ K) as (k' & -> & H & _). exists (k ++ k'). rewrite app_assoc. split; [reflexivity|]. destruct H as [->|H]; [exact Q|]. apply Big. rewrite app_length in H. lia. }
  destruct o as [h|a h| |raw c|p a|p a|p i a|p i a|p i|p|p q|p a|a b|p]; cbn [step names_pkts names_objs] in *.
  - cbn [fst]. unfold inv, refs in *. cbn [st_objs st_pkts] in *. rewrite app_length. split; [lia|]. split; [exact B|]. split; [exact C|]. split; [exact D|].
    intros a N. rewrite obj_app by (apply old_obj in N; lia). now apply E.
  - cbn [fst]. apply inv_objs; [exact I|apply set_nth_length|]. intros b N. apply obj_set_other. intros ->. apply N, Ho. now left.
  - rewrite <- (app_nil_r (st_objs s)). apply inv_new; [exact I|intros ? []].
  - destruct (pkt_new raw c) as [hs|e]; [|exact I]. apply inv_new; [exact I|]. intros a Q. apply in_seq in Q. apply Big. lia.
  - assert (Mp := Hp p (or_introl eq_refl)). assert (Oa := Ho a (or_introl eq_refl)).
    rewrite <- (app_nil_r (st_objs s)). destruct (add_ref (st_objs s ++ []) a) as [o' c] eqn:K. destruct (AddR _ _ _ _ Oa K) as (k' & -> & Oc). cbn [fst].
    apply inv_refs; [exact I|exact Mp|]. intros b Q. apply in_app_or in Q as [Q|[<-|[]]]; [now apply (Own p)|exact Oc].
  - assert (Mp := Hp p (or_introl eq_refl)). assert (Oa := Ho a (or_introl eq_refl)). apply inv_refs0; [exact I|exact Mp|]. intros b [<-|Q]; [exact Oa|now apply (Own p)].
  - assert (Mp := Hp p (or_introl eq_refl)). assert (Oa := Ho a (or_introl eq_refl)). apply inv_refs0; [exact I|exact Mp|]. intros b Q.
    apply in_app_or in Q as [Q|[<-|Q]]; [|exact Oa|]; apply (Own p Mp); rewrite <- (firstn_skipn (clampidx (content s p) i) (refs s p)); apply in_or_app; auto.
  - assert (Mp := Hp p (or_introl eq_refl)). assert (Oa := Ho a (or_introl eq_refl)). destruct (checkidx _ _) as [n|e]; [|exact I]. cbn [fst]. apply inv_refs0; [exact I|exact Mp|].
    intros b Q. assert (G : forall (l : list nat) m, In b (set_nth m a l) -> b = a \/ In b l) by (induction l as [|y l IH]; intros [|m]; cbn [set_nth In]; [tauto|tauto|intros [<-|H]; auto|intros [<-|H]; [auto|apply IH in H; tauto]]).
    destruct (G _ _ Q) as [->|Q']; [exact Oa|now apply (Own p)].
  - assert (Mp := Hp p (or_introl eq_refl)). destruct (checkidx _ _) as [n|e]; [|exact I]. cbn [fst]. apply inv_refs0; [exact I|exact Mp|]. intros b Q. apply (Own p Mp).
    unfold del_nth in Q. rewrite <- (firstn_skipn n (refs s p)). apply in_app_or in Q as [Q|Q]; apply in_or_app; [now left|right].
    assert (G : forall (l : list nat) m, In b (skipn (S m) l) -> In b (skipn m l)) by (induction l as [|y l IH]; intros [|m]; cbn; auto; apply (IH m)). now apply G.
  - assert (Mp := Hp p (or_introl eq_refl)). destruct (copy_refs _ _ _) as [o' l] eqn:K. destruct (Copy _ _ _ Mp K) as (k & -> & H). apply inv_new; [exact I|exact H].
  - assert (Mp := Hp p (or_introl eq_refl)). assert (Mq := Hp q (or_intror (or_introl eq_refl))). destruct (copy_refs _ _ _) as [o1 l] eqn:K. destruct (Copy _ _ _ Mp K) as (k & -> & H).
    destruct (add_refs _ _) as [o2 r] eqn:G. destruct (add_refs_grow _ _ _ _ G) as (k2 & -> & H2). rewrite <- app_assoc. apply inv_new; [exact I|].
    intros c Q. apply in_app_or in Q as [Q|Q]; [auto|]. destruct (H2 c Q) as [Q'|Q']; [now apply (Own q)|]. apply Big. rewrite app_length in Q'. lia.
  - assert (Mp := Hp p (or_introl eq_refl)). assert (Oa := Ho a (or_introl eq_refl)). destruct (copy_refs _ _ _) as [o1 l] eqn:K. destruct (Copy _ _ _ Mp K) as (k & -> & H).
    destruct (add_ref _ _) as [o2 c] eqn:G. destruct (AddR _ _ _ _ Oa G) as (k' & -> & Oc). apply inv_new; [exact I|]. intros b Q. apply in_app_or in Q as [Q|[<-|[]]]; auto.
  - assert (Oa := Ho a (or_introl eq_refl)). assert (Ob := Ho b (or_intror (or_introl eq_refl))). rewrite <- (app_nil_r (st_objs s)).
    destruct (add_ref (st_objs s ++ []) a) as [o1 c] eqn:K. destruct (AddR _ _ _ _ Oa K) as (k & -> & Oc). destruct (add_ref (st_objs s ++ k) b) as [o2 d] eqn:G. destruct (AddR _ _ _ _ Ob G) as (k' & -> & Od).
    apply inv_new; [exact I|]. intros e [<-|[<-|[]]]; assumption.
  - assert (Mp := Hp p (or_introl eq_refl)). destruct (ser_refs _ _ _ _) as [o' r] eqn:K. apply ser_refs_frame in K as [L F]. cbn [fst]. apply inv_objs; [exact I|exact L|].
    intros a N. apply F. intros Q. apply in_rev in Q. apply N. now apply (Own p).
Qed.
End Region.

Lemma inv_run n0 m0 (mine owned : nat -> Prop) s0 : (forall p, m0 <= p -> mine p) -> (forall a, n0 <= a -> owned a) ->
  forall os t, inv n0 m0 mine owned s0 t -> Forall (fun o => (forall p, In p (names_pkts o) -> mine p) /\ (forall a, In a (names_objs o) -> owned a)) os ->
  inv n0 m0 mine owned s0 (run t os).
Proof. intros M O. induction os as [|o os IH]; intros t It F; [exact It|]. inversion F as [|? ? [P Q] F']; subst. cbn [run]. apply IH; [|exact F']. now apply inv_step. Qed.

Lemma isolated s x y : sound s -> x < length (st_pkts s) -> y < length (st_pkts s) -> x <> y -> share_no_header s x y -> unaffected s x y.
Proof.
  intros Sd Lx Ly Ne Dj os F.
  set (mine := fun p => p = x \/ length (st_pkts s) <= p). set (owned := fun a => In a (refs s x) \/ length (st_objs s) <= a).
  assert (I : inv (length (st_objs s)) (length (st_pkts s)) mine owned s s).
  { unfold inv. split; [lia|]. split; [lia|]. split; [|auto]. intros p a [->|Q] Ha; [now left|]. unfold refs in Ha. rewrite nth_overflow in Ha by lia. destruct Ha. }
  assert (G := inv_run _ _ mine owned s (fun p Q => or_intror Q) (fun a Q => or_intror Q) os s I F). destruct G as (_ & _ & _ & D & E).
  unfold content. rewrite D by (intros [->|Q]; [now apply Ne|lia]). apply map_ext_in. intros a Ha. apply E. intros [Q|Q]; [exact (Dj a Q Ha)|]. specialize (Sd y a Ha). lia.
Qed.
(** The same seen from the other side: a packet that shares nothing is kept from programs that name neither it nor its headers. *)
Lemma kept s y : sound s -> y < length (st_pkts s) -> (forall p, p <> y -> share_no_header s p y) ->
  forall os, Forall (fun o => ~ In y (names_pkts o) /\ forall a, In a (refs s y) -> ~ In a (names_objs o)) os ->
  content (run s os) y = content s y /\ refs (run s os) y = refs s y.
Proof.
  intros Sd Ly Al os F. set (mine := fun p => p <> y). set (owned := fun a => ~ In a (refs s y)).
  assert (I : inv (length (st_objs s)) (length (st_pkts s)) mine owned s s).
  { unfold inv. split; [lia|]. split; [lia|]. split; [|auto]. intros p a Q Ha. exact (Al p Q a Ha). }
  assert (M : forall p, length (st_pkts s) <= p -> mine p) by (intros p Q ->; lia).
  assert (O : forall a, length (st_objs s) <= a -> owned a) by (intros a Q Ha; specialize (Sd y a Ha); lia).
  assert (F2 : Forall (fun o => (forall p, In p (names_pkts o) -> mine p) /\ (forall a, In a (names_objs o) -> owned a)) os).
  { eapply Forall_impl; [|exact F]. intros o [A B]. split; [intros p Q ->; contradiction|intros a Q Ha; exact (B a Ha Q)]. }
  assert (G := inv_run _ _ mine owned s M O os s I F2). destruct G as (_ & _ & _ & D & E).
  assert (R : refs (run s os) y = refs s y) by (apply D; intros Q; now apply Q). split; [|exact R].
  unfold content. rewrite R. apply map_ext_in. intros a Ha. apply E. intros Q. exact (Q Ha).
Qed.

(** What exists keeps its meaning when a packet is made. *)
Lemma content_new s l k p : sound s -> p < length (st_pkts s) -> content (fst (new_pkt (st_objs s ++ k) (st_pkts s) l)) p = content s p /\ refs (fst (new_pkt (st_objs s ++ k) (st_pkts s) l)) p = refs s p.
Proof. intros Sd L. unfold content. rewrite refs_new. replace (p =? length (st_pkts s)) with false by (symmetry; apply Nat.eqb_neq; lia). split; [|reflexivity].
  apply map_ext_in. intros a Ha. apply obj_app. now apply (Sd p). Qed.

Lemma new_unshared s k l y : sound s -> y < length (st_pkts s) -> (forall c, In c l -> ~ In c (refs s y)) ->
  (forall c, In c l -> c < length (st_objs s) + length k) ->
  let s' := fst (new_pkt (st_objs s ++ k) (st_pkts s) l) in
  content s' y = content s y /\ unaffected s' (length (st_pkts s)) y /\ unaffected s' y (length (st_pkts s)).
Proof.
  intros Sd Ly Dj B s'.
  assert (Rq : refs s' (length (st_pkts s)) = l) by (unfold s'; rewrite refs_new, Nat.eqb_refl; reflexivity).
  destruct (content_new s l k y Sd Ly) as [Cy Ry]. fold s' in Cy, Ry.
  assert (Sd' : sound s').
  { intros p a. unfold s'. rewrite refs_new. cbn [new_pkt fst st_objs]. rewrite app_length. destruct (p =? _); [apply B|]. intros Ha. specialize (Sd p a Ha). lia. }
  assert (L : length (st_pkts s') = S (length (st_pkts s))) by (unfold s'; cbn; rewrite app_length; cbn; lia).
  split; [exact Cy|]. split; apply isolated; try assumption; try lia; intros a; rewrite Rq, Ry; intros H H'; [exact (Dj a H H')|exact (Dj a H' H)].
Qed.
Lemma fresh_unshared s c y : sound s -> length (st_objs s) <= c -> ~ In c (refs s y).
Proof. intros Sd L H. specialize (Sd y c H). lia. Qed.

(** deepcopy(p). *)
Lemma copy_made s p : sound s -> exists s', step s (OCopy p) = (s', NewPkt (length (st_pkts s))) /\ content s' (length (st_pkts s)) = content s p /\
  forall y, y < length (st_pkts s) -> content s' y = content s y /\ unaffected s' (length (st_pkts s)) y /\ unaffected s' y (length (st_pkts s)).
Proof.
  intros Sd. cbn [step]. destruct (copy_refs (st_objs s) [] (refs s p)) as [o' l] eqn:K. pose proof K as K2.
  apply copy_refs_values in K2; [|intros a; apply Sd|discriminate]. destruct (copy_refs_grow _ _ _ _ _ K) as (k & -> & H); [discriminate|].
  eexists. split; [reflexivity|]. split; [unfold content, refs at 1; cbn [st_pkts st_objs]; rewrite app_nth2, Nat.sub_diag by lia; exact K2|].
  intros y Ly. apply (new_unshared s k l y Sd Ly); intros c Hc; destruct (H c Hc) as [[? [=]]|H']; [apply fresh_unshared; [exact Sd|lia]|rewrite app_length in H'; lia].
Qed.
(** Packet(raw, first_header). *)
Lemma parse_made s raw c hs : sound s -> pkt_new raw c = Ok hs -> exists s', step s (OParse raw c) = (s', NewPkt (length (st_pkts s))) /\ content s' (length (st_pkts s)) = hs /\
  forall y, y < length (st_pkts s) -> content s' y = content s y /\ unaffected s' (length (st_pkts s)) y /\ unaffected s' y (length (st_pkts s)).
Proof.
  intros Sd P. cbn [step]. rewrite P. eexists. split; [reflexivity|]. split.
  - unfold content, refs at 1. cbn [st_pkts st_objs]. rewrite app_nth2, Nat.sub_diag by lia. cbn [nth].
    assert (G : forall (l o : list hdr), map (obj (o ++ l)) (seq (length o) (length l)) = l).
    { induction l as [|h l IH]; intros o; [reflexivity|]. cbn [length seq map]. f_equal; [unfold obj; rewrite app_nth2, Nat.sub_diag by lia; reflexivity|].
      specialize (IH (o ++ [h])). rewrite <- app_assoc in IH. rewrite app_length, Nat.add_comm in IH. exact IH. }
    apply G.
  - intros y Ly. apply (new_unshared s hs _ y Sd Ly); intros a Ha; apply in_seq in Ha; [apply fresh_unshared; [exact Sd|lia]|lia].
Qed.
(** p + q. *)
Lemma add_refs_values : forall l o o' r, add_refs o l = (o', r) -> (forall a, In a l -> a < length o) -> map (obj o') r = map (fun a => wrap_bytes (obj o a)) l.
Proof.
  induction l as [|a l IH]; intros o o' r; cbn [add_refs]; [intros [= <- <-]; reflexivity|].
  destruct (add_ref o a) as [o1 c] eqn:A. destruct (add_refs o1 l) as [o2 r2] eqn:B. intros [= <- <-] V.
  destruct (add_ref_grow _ _ _ _ A) as (k1 & -> & _). destruct (add_refs_grow _ _ _ _ B) as (k2 & -> & _).
  cbn [map]. assert (Va := V a (or_introl eq_refl)). f_equal.
  - unfold add_ref in A. destruct (obj o a) eqn:O; injection A as A <-; try (rewrite <- app_assoc, obj_app by exact Va; rewrite O; reflexivity).
    rewrite <- A, obj_app by (rewrite app_length; cbn; lia). unfold obj. rewrite app_nth2, Nat.sub_diag by lia. reflexivity.
  - rewrite (IH _ _ _ B); [|intros x X; rewrite app_length; specialize (V x (or_intror X)); lia]. apply map_ext_in. intros x X. rewrite obj_app; [reflexivity|]. apply V. now right.
Qed.
Lemma plus_made s p q : sound s -> exists s', step s (OPlus p q) = (s', NewPkt (length (st_pkts s))) /\ content s' (length (st_pkts s)) = content s p ++ map wrap_bytes (content s q) /\
  forall y, y < length (st_pkts s) -> content s' y = content s y /\
    (share_no_header s q y -> unaffected s' (length (st_pkts s)) y /\ unaffected s' y (length (st_pkts s))).
Proof.
  intros Sd. cbn [step]. destruct (copy_refs (st_objs s) [] (refs s p)) as [o1 l] eqn:K. pose proof K as K2.
  apply copy_refs_values in K2; [|intros a; apply Sd|discriminate]. destruct (copy_refs_grow _ _ _ _ _ K) as (k & -> & H); [discriminate|].
  destruct (add_refs (st_objs s ++ k) (refs s q)) as [o2 r] eqn:G. pose proof G as G2.
  apply add_refs_values in G2; [|intros a Ha; rewrite app_length; specialize (Sd q a Ha); lia]. destruct (add_refs_grow _ _ _ _ G) as (k2 & -> & H2).
  assert (Fresh : forall c, In c l -> length (st_objs s) <= c < length (st_objs s) + length k) by (intros c Hc; destruct (H c Hc) as [[? [=]]|H']; rewrite app_length in H'; lia).
  eexists. split; [reflexivity|]. split.
  - unfold content at 1, refs at 1. cbn [st_pkts st_objs]. rewrite app_nth2, Nat.sub_diag by lia. cbn [nth]. rewrite map_app, G2. f_equal.
    + unfold content. rewrite <- K2. apply map_ext_in. intros c Hc. apply obj_app. rewrite app_length. specialize (Fresh c Hc). lia.
    + unfold content. rewrite map_map. apply map_ext_in. intros a Ha. rewrite obj_app; [reflexivity|]. now apply (Sd q).
  - intros y Ly. rewrite <- app_assoc. split; [apply (content_new s _ _ y Sd Ly)|]. intros Dj. apply (new_unshared s (k ++ k2) (l ++ r) y Sd Ly); intros c Hc; apply in_app_or in Hc as [Hc|Hc].
    + apply fresh_unshared; [exact Sd|]. specialize (Fresh c Hc). lia.
    + destruct (H2 c Hc) as [Q|Q]; [exact (Dj c Q)|]. apply fresh_unshared; [exact Sd|]. rewrite app_length in Q. lia.
    + specialize (Fresh c Hc). rewrite app_length. lia.
    + destruct (H2 c Hc) as [Q|Q]; [specialize (Sd q c Q); rewrite app_length; lia|]. rewrite !app_length in *. lia.
Qed.
(** p.to_bytes() on a packet that holds no header object twice is the serialisation of its content. *)
Fixpoint write_all (o : list hdr) (l : list nat) (vs : list hdr) : list hdr :=
  match l, vs with a :: t, v :: vt => set_nth a v (write_all o t vt) | _, _ => o end.
Lemma write_all_len o : forall l vs, length (write_all o l vs) = length o.
Proof. induction l as [|a l IH]; intros [|v vs]; cbn [write_all]; auto. rewrite set_nth_length. apply IH. Qed.
Lemma write_all_other o : forall l vs a, ~ In a l -> obj (write_all o l vs) a = obj o a.
Proof. induction l as [|x l IH]; intros [|v vs] a N; cbn [write_all]; auto. rewrite obj_set_other by (intros ->; apply N; now left). apply IH. intros Q. apply N. now right. Qed.
Lemma write_all_same o : forall l vs, NoDup l -> (forall a, In a l -> a < length o) -> length vs = length l -> map (obj (write_all o l vs)) l = vs.
Proof. induction l as [|x l IH]; intros [|v vs] N V L; try discriminate; cbn [write_all map]; [reflexivity|]. inversion N; subst. f_equal.
  - apply obj_set_same. rewrite write_all_len. apply V. now left.
  - rewrite <- (IH vs H2) at 2; [|intros; apply V; now right|cbn in L; lia]. apply map_ext_in. intros a Ha. apply obj_set_other. intros ->. contradiction. Qed.
Lemma ser_len : forall hs pre vs raw, ser pre hs = Ok (vs, raw) -> length vs = length hs.
Proof. induction hs as [|h t IH]; intros pre vs raw; cbn [ser]; [intros [= <- _]; reflexivity|]. unfold bindr. destruct (ser (pre ++ [h]) t) as [[t' r]|] eqn:S; [|discriminate].
  destruct (pre_ser _ _ _) as [h'|]; [|discriminate]. destruct (hdr_bytes h') as [b|]; [|discriminate]. intros [= <- _]. cbn. f_equal. eapply IH; eauto. Qed.
Lemma ser_refs_ser : forall suf pre o rest, NoDup (pre ++ suf) -> (forall a, In a (pre ++ suf) -> a < length o) ->
  match ser (map (obj o) pre) (map (obj o) suf) with
  | Ok (vs, raw) => ser_refs o (pre ++ suf) (rev suf ++ rest) [] = ser_refs (write_all o suf vs) (pre ++ suf) rest raw
  | Err e => exists o', ser_refs o (pre ++ suf) (rev suf ++ rest) [] = (o', Err e)
  end.
Proof.
  induction suf as [|a suf IH]; intros pre o rest N V; [reflexivity|].
  cbn [map ser rev]. specialize (IH (pre ++ [a]) o (a :: rest)). rewrite <- app_assoc in IH. cbn [app] in IH. specialize (IH N V). rewrite map_app in IH. cbn [map] in IH.
  unfold bindr. destruct (ser (map (obj o) pre ++ [obj o a]) (map (obj o) suf)) as [[vs raw]|e] eqn:S.
  - rewrite <- app_assoc. cbn [app]. rewrite IH. cbn [ser_refs].
    assert (Na : ~ In a suf /\ NoDup suf) by (apply NoDup_remove in N as [N1 N2]; split; [intros Q; apply N2, in_or_app; now right|]; clear -N1; induction pre; cbn in N1; [exact N1|inversion N1; auto]).
    assert (Lv := ser_len _ _ _ _ S). rewrite map_length in Lv.
    assert (M : map (obj (write_all o suf vs)) (pre ++ a :: suf) = map (obj o) pre ++ obj o a :: vs).
    { rewrite map_app. cbn [map]. f_equal; [apply map_ext_in; intros x X; apply write_all_other; intros Q; revert N X Q; clear; induction pre as [|y pre IHp]; cbn; [tauto|]; intros N [->|X] Q; inversion N; subst; [apply H1, in_or_app; right; now right|now apply IHp]|].
      f_equal; [now apply write_all_other|]. apply write_all_same; [apply Na| |exact Lv]. intros x X. apply V, in_or_app. right. now right. }
    rewrite M, (write_all_other _ _ _ a) by apply Na. destruct (pre_ser raw (map (obj o) pre ++ obj o a :: vs) (obj o a)) as [h1|e]; [|eauto].
    destruct (hdr_bytes h1) as [b|e]; [|eauto]. reflexivity.
  - destruct IH as [o' IH]. exists o'. rewrite <- app_assoc. exact IH.
Qed.
Lemma serialised s p : sound s -> NoDup (refs s p) ->
  match pkt_to_bytes (content s p) with
  | Ok (c, b) => exists s', step s (OSer p) = (s', Sent b) /\ content s' p = c /\ forall y, share_no_header s p y -> content s' y = content s y
  | Err e => snd (step s (OSer p)) = Raised e
  end.
Proof.
  intros Sd N. unfold pkt_to_bytes, content. assert (H := ser_refs_ser (refs s p) [] (st_objs s) [] N (Sd p)). cbn [app map] in H. rewrite app_nil_r in H. cbn [step].
  destruct (ser [] _) as [[c b]|e] eqn:S.
  - cbn [ser_refs] in H. rewrite H. eexists. split; [reflexivity|]. unfold refs at 1. cbn [st_objs st_pkts]. fold (refs s p). apply ser_len in S. rewrite map_length in S.
    split; [apply write_all_same; [exact N|apply Sd|exact S]|]. intros y Dj. unfold refs at 1. cbn [st_pkts]. fold (refs s y). apply map_ext_in. intros a Ha. apply write_all_other. intros Q. exact (Dj a Q Ha).
  - destruct H as [o' ->]. reflexivity.
Qed.
