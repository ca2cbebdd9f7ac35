(** Proofs about command-line arguments and calls. *)
From Verif Require Import Base BaseLemmas EthAddrModel EthAddrProofs UserModel UserSpec.

Lemma spaces_drop : forall s, Forall (fun c => space c = true) s -> forall r, split_ws [] (s ++ r) = split_ws [] r.
Proof. induction 1 as [|c s H _ IH]; intros r; [reflexivity|]. cbn [app split_ws]. rewrite H. apply IH. Qed.
Lemma word_take : forall w, Forall (fun c => space c = false) w -> forall cur r, split_ws cur (w ++ r) = split_ws (cur ++ w) r.
Proof.
  induction 1 as [|c w H _ IH]; intros cur r; [rewrite app_nil_r; reflexivity|]. cbn [app split_ws]. rewrite H, IH, <- app_assoc. reflexivity.
Qed.
Lemma split_of_spaced : forall s ws, spaced s ws -> split_ws [] s = ws.
Proof.
  induction 1 as [s H|lead w rest ws Hl Hn Hw Hr H IH].
  - rewrite <- (app_nil_r s), spaces_drop by exact H. reflexivity.
  - rewrite spaces_drop by exact Hl. rewrite word_take by exact Hw. cbn [app].
    destruct rest as [|c r]; cbn [split_ws].
    + destruct w; [congruence|]. inversion H; subst; [reflexivity|]. exfalso. destruct lead0; [destruct w0; [congruence|discriminate]|discriminate].
    + rewrite (Hr c r eq_refl). destruct w; [congruence|]. f_equal. rewrite <- IH. cbn [split_ws]. rewrite (Hr c r eq_refl). reflexivity.
Qed.
Lemma spaced_exists : forall s cur, Forall (fun c => space c = false) cur ->
  (cur = [] -> exists ws, spaced s ws) /\ (cur <> [] -> exists ws, spaced (cur ++ s) ws).
Proof.
  induction s as [|c s IH]; intros cur Hc.
  - split; intros H; [exists []; constructor; constructor|]. exists [cur]. apply (sp_cons [] cur [] []); auto; try constructor. discriminate. constructor.
  - destruct (space c) eqn:Es.
    + destruct (proj1 (IH [] (Forall_nil _)) eq_refl) as [ws Hw].
      assert (Hs : spaced (c :: s) ws).
      { inversion Hw; subst; [constructor; constructor; auto|]. apply (sp_cons (c :: lead) w rest ws0); auto. }
      split; intros H; [exists ws; exact Hs|]. exists (cur :: ws). apply (sp_cons [] cur (c :: s) ws); auto. intros c' r E. inversion E; subst; exact Es.
    + split; intros H.
      * subst. destruct (proj2 (IH [c] (Forall_cons _ Es (Forall_nil _)))) as [ws Hw]; [discriminate|]. exists ws. exact Hw.
      * assert (Hc' : Forall (fun c => space c = false) (cur ++ [c])) by (apply Forall_app; auto).
        destruct (proj2 (IH (cur ++ [c]) Hc')) as [ws Hw]; [destruct cur; discriminate|]. exists ws. rewrite <- app_assoc in Hw. exact Hw.
Qed.
Lemma every_text : forall s, exists ws, spaced s ws.
Proof. intros s. exact (proj1 (spaced_exists s [] (Forall_nil _)) eq_refl). Qed.

(** ** The words *)
Lemma pair_split : forall w k v, pair_word w k v -> zmem 61 w = true /\ split 61 w = [k; v].
Proof.
  intros w k v (-> & Nk & Nv). split; [apply zmem_In, in_elt|]. change (k ++ 61 :: v) with (join 61 [k; v]). apply split_join; [discriminate|]. repeat constructor; auto.
Qed.
Lemma split_join_id : forall sep s, join sep (split sep s) = s /\ split sep s <> [].
Proof.
  intros sep. induction s as [|c s [IH1 IH2]]; [split; [reflexivity|discriminate]|]. cbn [split].
  destruct (Z.eqb_spec c sep) as [->|N].
  - split; [|discriminate]. destruct (split sep s) as [|g gs] eqn:E; [congruence|]. cbn [join app] in *. rewrite IH1. reflexivity.
  - destruct (split sep s) as [|g gs] eqn:E; [congruence|]. split; [|discriminate]. destruct gs as [|g' gs]; cbn [join app] in *; rewrite IH1; reflexivity.
Qed.
Lemma split_nosep_all : forall sep s, Forall (fun g => ~ In sep g) (split sep s).
Proof.
  intros sep. induction s as [|c s IH]; cbn [split]; [constructor; [intros []|constructor]|]. destruct (Z.eqb_spec c sep) as [->|N].
  - constructor; [intros []|exact IH].
  - destruct (split sep s) as [|g gs]; [repeat constructor; intros [E|[]]; congruence|]. inversion IH; subst. constructor; [intros [E|E]; [congruence|auto]|auto].
Qed.
Lemma split_pair : forall w k v, split 61 w = [k; v] -> pair_word w k v.
Proof.
  intros w k v E. destruct (split_join_id 61 w) as [J _]. pose proof (split_nosep_all 61 w) as N. rewrite E in J, N. cbn [join] in J.
  inversion N as [|? ? N1 N2]; subst. inversion N2; subst. split; [reflexivity|]. auto.
Qed.
Lemma plain_zmem : forall w, plain w <-> zmem 61 w = false.
Proof. intros w. unfold plain. rewrite <- not_true_iff_false, zmem_In. reflexivity. Qed.
Lemma pair_det : forall w k v k' v', pair_word w k v -> pair_word w k' v' -> k = k' /\ v = v'.
Proof. intros w k v k' v' H H'. apply pair_split in H, H'. destruct H as [_ H], H' as [_ H']. rewrite H in H'. injection H' as -> ->. auto. Qed.

(** ** The dictionary *)
Lemma tset_in : forall d k v k' v', NoDup (map fst d) -> In (k', v') (tset d k v) <-> (k' = k /\ v' = v) \/ (k' <> k /\ In (k', v') d).
Proof.
  induction d as [|[a b] d IH]; intros k v k' v' Nd; cbn [tset].
  - cbn. split; [intros [E|[]]; inversion E; auto|intros [[-> ->]|[_ []]]; auto].
  - cbn [map fst] in Nd. inversion Nd as [|? ? Na Nd']; subst. destruct (bytes_eqb a k) eqn:E.
    + apply bytes_eqb_eq in E. subst a. cbn [In]. split.
      * intros [E|H]; [inversion E; auto|]. right. split; [|auto]. intros ->. apply Na. apply (in_map fst) in H. exact H.
      * intros [[-> ->]|[N [E|H]]]; [auto|inversion E; congruence|auto].
    + assert (a <> k) by (intros ->; assert (bytes_eqb k k = true) by (apply bytes_eqb_eq; reflexivity); congruence).
      cbn [In]. rewrite IH by exact Nd'. split.
      * intros [E'|[H'|[N H']]]; [inversion E'; subst; right; auto|auto|right; auto].
      * intros [H'|[N [E'|H']]]; [auto|auto|auto].
Qed.
Lemma tset_nodup : forall d k v, NoDup (map fst d) -> NoDup (map fst (tset d k v)).
Proof.
  induction d as [|[a b] d IH]; intros k v Nd; cbn [tset map fst]; [constructor; [intros []|constructor]|].
  cbn [map fst] in Nd. inversion Nd as [|? ? Na Nd']; subst. destruct (bytes_eqb a k) eqn:E; cbn [map fst]; constructor; auto.
  intros H. apply in_map_iff in H. destruct H as ([k' v'] & Ek & H). cbn [fst] in Ek. subst k'. apply tset_in in H; [|exact Nd'].
  destruct H as [[-> _]|[_ H]]; [assert (bytes_eqb k k = true) by (apply bytes_eqb_eq; reflexivity); congruence|]. apply Na. apply (in_map fst) in H. exact H.
Qed.
Lemma loop_ok : forall ws args kw, Forall wellformed ws -> NoDup (map fst kw) ->
  exists kw', codeargs_loop ws args kw = Ok (args ++ positional ws, kw') /\ NoDup (map fst kw') /\
  forall k v, In (k, v) kw' <-> last_set ws k v \/ ((forall w' v', In w' ws -> ~ pair_word w' k v') /\ In (k, v) kw).
Proof.
  induction ws as [|w ws IH]; intros args kw F Nd; cbn [codeargs_loop].
  - exists kw. cbn [positional filter]. rewrite app_nil_r. split; [reflexivity|]. split; [exact Nd|]. intros k v. split.
    + intros H. right. split; [intros w' v' []|exact H].
    + intros [(a & w & b & E & _)|[_ H]]; [destruct a; discriminate|exact H].
  - inversion F as [|? ? Hw Hws]; subst. destruct Hw as [Hp|(k0 & v0 & Hp)].
    + rewrite (proj1 (plain_zmem w) Hp). destruct (IH (args ++ [w]) kw Hws Nd) as (kw' & E & N' & K). exists kw'. split.
      * rewrite E. cbn [positional filter]. rewrite (proj1 (plain_zmem w) Hp). cbn [negb]. rewrite <- app_assoc. reflexivity.
      * split; [exact N'|]. intros k v. rewrite K.
        assert (Np : forall k v, ~ pair_word w k v) by (intros q r (Eq & _ & _); apply Hp; rewrite Eq; apply in_elt).
        split; intros [H|[H1 H2]].
        -- left. destruct H as (a & w1 & b & -> & H). exists (w :: a), w1, b. split; [reflexivity|exact H].
        -- right. split; [intros w' v' [<-|Hi]; [apply Np|apply H1; exact Hi]|exact H2].
        -- destruct H as (a & w1 & b & E1 & H & Hb). destruct a as [|y a]; cbn [app] in E1; inversion E1; subst; [exfalso; exact (Np _ _ H)|].
           left. exists a, w1, b. auto.
        -- right. split; [intros w' v' Hi; apply H1; right; exact Hi|exact H2].
    + destruct (pair_split _ _ _ Hp) as [Z S]. rewrite Z, S. destruct (IH args (tset kw k0 v0) Hws (tset_nodup _ _ _ Nd)) as (kw' & E & N' & K).
      exists kw'. split; [rewrite E; cbn [positional filter]; rewrite Z; reflexivity|]. split; [exact N'|]. intros k v. rewrite K, tset_in by exact Nd.
      split.
      * intros [H|[H1 [[-> ->]|[Nk H2]]]].
        -- left. destruct H as (a & w1 & b & -> & H). exists (w :: a), w1, b. split; [reflexivity|exact H].
        -- left. exists [], w, ws. split; [reflexivity|]. split; [exact Hp|exact H1].
        -- right. split; [|exact H2]. intros w' v' [<-|Hi]; [intros Hq; destruct (pair_det _ _ _ _ _ Hp Hq) as [E1 _]; congruence|apply H1; exact Hi].
      * intros [H|[H1 H2]].
        -- destruct H as (a & w1 & b & E1 & H & Hb). destruct a as [|y a]; cbn [app] in E1; inversion E1; subst.
           ++ right. split; [exact Hb|]. left. destruct (pair_det _ _ _ _ _ Hp H); auto.
           ++ left. exists a, w1, b. auto.
        -- right. split; [intros w' v' Hi; apply H1; right; exact Hi|]. right. split; [|exact H2]. intros ->. apply (H1 w v0); [left; reflexivity|exact Hp].
Qed.
Lemma loop_err : forall ws args kw, ~ Forall wellformed ws -> codeargs_loop ws args kw = Err EValue.
Proof.
  induction ws as [|w ws IH]; intros args kw N; [exfalso; apply N; constructor|]. cbn [codeargs_loop].
  destruct (zmem 61 w) eqn:Z.
  - destruct (split 61 w) as [|k [|v [|? ?]]] eqn:S; try reflexivity. apply IH. intros F. apply N. constructor; [|exact F]. right. exists k, v. apply split_pair; exact S.
  - apply IH. intros F. apply N. constructor; [left; apply plain_zmem; exact Z|exact F].
Qed.
Lemma parse_ok : forall s ws, spaced s ws -> Forall wellformed ws -> exists kw, parse_codeargs (Some s) = Ok (positional ws, kw) /\ NoDup (map fst kw) /\
  forall k v, In (k, v) kw <-> last_set ws k v.
Proof.
  intros s ws Hs F. destruct (loop_ok ws [] [] F (NoDup_nil _)) as (kw & E & N & K). exists kw. unfold parse_codeargs. rewrite (split_of_spaced _ _ Hs).
  split; [exact E|]. split; [exact N|]. intros k v. rewrite K. split; [intros [H|[_ []]]; exact H|auto].
Qed.
Lemma parse_err : forall s ws, spaced s ws -> ~ Forall wellformed ws -> parse_codeargs (Some s) = Err EValue.
Proof. intros s ws Hs F. unfold parse_codeargs. rewrite (split_of_spaced _ _ Hs). apply loop_err; exact F. Qed.

(** ** Calls *)
Lemma fill_pos_names : forall ps vs, map fst (fill_pos ps vs) = map fst ps.
Proof. induction ps as [|[n d] ps IH]; intros [|v vs]; cbn [fill_pos map fst]; rewrite ?IH; reflexivity. Qed.
Lemma fill_pos_vals : forall ps vs i v, nth_error vs i = Some v -> (i < length ps)%nat -> exists n d, nth_error ps i = Some (n, d) /\ nth_error (fill_pos ps vs) i = Some (n, Some v).
Proof.
  induction ps as [|[n d] ps IH]; intros [|w vs] [|i] v H L; cbn [length] in L; try lia; cbn [nth_error] in H; try discriminate; cbn [fill_pos nth_error].
  - inversion H; subst. eauto.
  - apply IH; [exact H|lia].
Qed.
Lemma slot_set_ok : forall s k v s', slot_set s k v = Some (Ok s') -> map fst s' = map fst s /\ In (k, Some v) s' /\
  (forall i n x, nth_error s i = Some (n, Some x) -> nth_error s' i = Some (n, Some x)) /\
  (forall n x, In (n, Some x) s' -> In (n, Some x) s \/ (n = k /\ x = v)).
Proof.
  induction s as [|[n x] s IH]; intros k v s' H; cbn [slot_set] in H; [discriminate|]. destruct (bytes_eqb n k) eqn:E.
  - destruct x; [discriminate|]. inversion H; subst. apply bytes_eqb_eq in E. subst. split; [reflexivity|]. split; [left; reflexivity|]. split.
    + intros [|i] m y Hi; cbn [nth_error] in *; [discriminate|exact Hi].
    + intros m y [Eq|Hi]; [inversion Eq; auto|left; right; exact Hi].
  - destruct (slot_set s k v) as [[r|e]|] eqn:Es; try discriminate. inversion H; subst. destruct (IH _ _ _ Es) as (I1 & I2 & I3 & I4).
    split; [cbn [map fst]; rewrite I1; reflexivity|]. split; [right; exact I2|]. split.
    + intros [|i] m y Hi; cbn [nth_error] in *; [exact Hi|apply I3; exact Hi].
    + intros m y [Eq|Hi]; [left; left; exact Eq|]. destruct (I4 _ _ Hi); [left; right; assumption|auto].
Qed.
Lemma slot_set_none : forall s k v, slot_set s k v = None <-> ~ In k (map fst s).
Proof.
  induction s as [|[n x] s IH]; intros k v; cbn [slot_set map fst]; [split; [intros _ []|reflexivity]|].
  destruct (bytes_eqb n k) eqn:E.
  - apply bytes_eqb_eq in E. subst. split; [discriminate|]. intros H. exfalso. apply H. left; reflexivity.
  - assert (n <> k) by (intros ->; assert (bytes_eqb k k = true) by (apply bytes_eqb_eq; reflexivity); congruence).
    specialize (IH k v). destruct (slot_set s k v) as [[r|e]|]; (split; [try discriminate|]).
    + intros K. exfalso. destruct IH as [_ IH]. assert (~ In k (map fst s)) by (intros Hi; apply K; right; exact Hi). specialize (IH H0). discriminate.
    + intros K. exfalso. destruct IH as [_ IH]. assert (~ In k (map fst s)) by (intros Hi; apply K; right; exact Hi). specialize (IH H0). discriminate.
    + intros _ [Eq|Hi]; [auto|apply (proj1 IH eq_refl Hi)].
    + reflexivity.
Qed.
Lemma fill_kw_ok : forall kw ks s extra s' ex, fill_kw kw s extra ks = Ok (s', ex) -> map fst s' = map fst s /\
  (forall i n x, nth_error s i = Some (n, Some x) -> nth_error s' i = Some (n, Some x)) /\
  (forall k v, In (k, v) ks -> In (k, Some v) s' \/ (kw = true /\ ~ In k (map fst s) /\ In (k, v) ex)) /\
  (forall n x, In (n, Some x) s' -> In (n, Some x) s \/ In (n, x) ks) /\
  (forall k v, In (k, v) extra -> In (k, v) ex) /\ (forall k v, In (k, v) ex -> In (k, v) extra \/ (kw = true /\ In (k, v) ks)).
Proof.
  intros kw. induction ks as [|[k v] ks IH]; intros s extra s' ex H; cbn [fill_kw] in H.
  - inversion H; subst. repeat split; auto. intros k v [].
  - destruct (slot_set s k v) as [[r|e]|] eqn:Es; try discriminate.
    + destruct (slot_set_ok _ _ _ _ Es) as (S1 & S2 & S3 & S4). destruct (IH _ _ _ _ H) as (I1 & I2 & I3 & I4 & I5 & I6).
      split; [congruence|]. split; [intros i n x Hi; apply I2, S3, Hi|]. split; [|split; [|split]].
      * intros k' v' [Eq|Hi]; [|rewrite <- S1; apply I3; exact Hi]. inversion Eq; subst. left. apply In_nth_error in S2. destruct S2 as [i Hi]. apply I2 in Hi. apply nth_error_In in Hi. exact Hi.
      * intros n x Hi. destruct (I4 _ _ Hi) as [Hj|Hj]; [destruct (S4 _ _ Hj) as [Hk|[-> ->]]; [left; exact Hk|right; left; reflexivity]|right; right; exact Hj].
      * exact I5.
      * intros k' v' Hi. destruct (I6 _ _ Hi) as [Hj|[Hk Hj]]; [left; exact Hj|right; split; [exact Hk|right; exact Hj]].
    + destruct kw; [|discriminate]. destruct (IH _ _ _ _ H) as (I1 & I2 & I3 & I4 & I5 & I6). split; [exact I1|]. split; [exact I2|]. split; [|split; [|split]].
      * intros k' v' [Eq|Hi]; [|apply I3; exact Hi]. inversion Eq; subst. right. split; [reflexivity|]. split; [apply (slot_set_none s k' v'); exact Es|].
        apply I5. apply in_or_app. right. left. reflexivity.
      * intros n x Hi. destruct (I4 _ _ Hi) as [Hj|Hj]; [left; exact Hj|right; right; exact Hj].
      * intros k' v' Hi. apply I5. apply in_or_app. auto.
      * intros k' v' Hi. destruct (I6 _ _ Hi) as [Hj|[Hk Hj]]; [|right; split; [exact Hk|right; exact Hj]]. apply in_app_or in Hj. destruct Hj as [Hj|[Eq|[]]]; [left; exact Hj|].
        inversion Eq; subst. right. split; [reflexivity|left; reflexivity].
Qed.
Lemma finish_ok : forall s ps n, length s = length ps -> finish s ps = Ok n -> map fst n = map fst s /\
  (forall i k x, nth_error s i = Some (k, Some x) -> nth_error n i = Some (k, x)) /\
  (forall k x, In (k, x) n -> In (k, Some x) s \/ x = VDefault).
Proof.
  induction s as [|[a x] s IH]; intros [|[b d] ps] n L H; cbn [length] in L; try lia; cbn [finish] in H.
  - inversion H; subst. repeat split; auto. intros [|i] k x Hi; discriminate.
  - destruct x as [v|].
    + cbn [bindr] in H. destruct (finish s ps) as [r|] eqn:E; [|discriminate]. cbn [bindr] in H. inversion H; subst.
      destruct (IH ps r ltac:(lia) E) as (I1 & I2 & I3). split; [cbn [map fst]; rewrite I1; reflexivity|]. split.
      * intros [|i] k x Hi; cbn [nth_error] in *; [inversion Hi; reflexivity|apply I2; exact Hi].
      * intros k x [Eq|Hi]; [inversion Eq; subst; left; left; reflexivity|]. destruct (I3 _ _ Hi); [left; right; assumption|auto].
    + destruct d; [|discriminate]. cbn [bindr] in H. destruct (finish s ps) as [r|] eqn:E; [|discriminate]. cbn [bindr] in H. inversion H; subst.
      destruct (IH ps r ltac:(lia) E) as (I1 & I2 & I3). split; [cbn [map fst]; rewrite I1; reflexivity|]. split.
      * intros [|i] k x Hi; cbn [nth_error] in *; [discriminate|apply I2; exact Hi].
      * intros k x [Eq|Hi]; [inversion Eq; auto|]. destruct (I3 _ _ Hi); [left; right; assumption|auto].
Qed.
Lemma fill_none : forall ps n x, ~ In (n, Some x) (fill_pos ps []).
Proof. induction ps as [|[a d] ps IH]; intros n x; cbn [fill_pos]; [intros []|]. intros [E|H]; [discriminate|exact (IH _ _ H)]. Qed.
Lemma fill_pos_in : forall ps vs n x, In (n, Some x) (fill_pos ps vs) -> In x vs.
Proof.
  induction ps as [|[a d] ps IH]; intros [|v vs] n x H; cbn [fill_pos] in H; [contradiction|contradiction| |].
  - destruct H as [E|H]; [discriminate|]. exfalso. exact (fill_none _ _ _ H).
  - destruct H as [E|H]; [inversion E; left; reflexivity|right; eapply IH; exact H].
Qed.
Lemma nth_ext_opt : forall {A} (l l' : list A), (forall i, nth_error l i = nth_error l' i) -> l = l'.
Proof.
  induction l as [|x l IH]; intros [|y l'] H; [reflexivity|specialize (H 0%nat); discriminate|specialize (H 0%nat); discriminate|].
  f_equal; [specialize (H 0%nat); inversion H; reflexivity|apply IH; intros i; exact (H (S i))].
Qed.
Lemma nth_firstn : forall {A} (l : list A) k i, nth_error (firstn k l) i = if Nat.ltb i k then nth_error l i else None.
Proof.
  induction l as [|x l IH]; intros [|k] [|i]; cbn [firstn nth_error]; try reflexivity.
  - destruct (Nat.ltb _ _); reflexivity.
  - rewrite IH. reflexivity.
Qed.
(** What a successful call binds. *)
Lemma call_ok : forall sg vs ks b, call sg vs ks = Ok b ->
  map fst (b_named b) = map fst (sg_pos sg) ++ map fst (sg_kwonly sg) /\
  firstn (length vs) (firstn (length (sg_pos sg)) (map snd (b_named b))) ++ b_star b = vs /\
  (sg_star sg = false -> b_star b = []) /\
  (forall k v, In (k, v) ks -> In (k, v) (b_named b) \/ (sg_kw sg = true /\ ~ In k (map fst (b_named b)) /\ In (k, v) (b_kw b))) /\
  (forall k v, In (k, v) (b_kw b) -> sg_kw sg = true /\ In (k, v) ks) /\
  (forall k v, In (k, v) (b_named b) -> In v vs \/ In (k, v) ks \/ v = VDefault).
Proof.
  intros sg vs ks b H. unfold call in H. cbv zeta in H.
  destruct (Nat.ltb (length (sg_pos sg)) (length vs) && negb (sg_star sg)) eqn:E0; [discriminate|].
  destruct (fill_kw (sg_kw sg) (fill_pos (sg_pos sg) vs ++ fill_pos (sg_kwonly sg) []) [] ks) as [[s ex]|] eqn:E1; [|discriminate]. cbn [bindr fst snd] in H.
  destruct (finish s (sg_pos sg ++ sg_kwonly sg)) as [n|] eqn:E2; [|discriminate]. cbn [bindr] in H. inversion H; subst; clear H. cbn [b_named b_star b_kw].
  destruct (fill_kw_ok _ _ _ _ _ _ E1) as (K1 & K2 & K3 & K4 & _ & K6).
  rewrite map_app, !fill_pos_names in K1.
  assert (Ls : length s = length (sg_pos sg ++ sg_kwonly sg)) by (rewrite <- (map_length fst s), K1, !app_length, !map_length; reflexivity).
  destruct (finish_ok _ _ _ Ls E2) as (F1 & F2 & F3).
  assert (Ln : length n = length (sg_pos sg ++ sg_kwonly sg)) by (rewrite <- (map_length fst n), F1, map_length; exact Ls).
  split; [congruence|]. split.
  - assert (V : forall i v, nth_error vs i = Some v -> (i < length (sg_pos sg))%nat -> nth_error (map snd n) i = Some v).
    { intros i v Hi L. destruct (fill_pos_vals _ _ _ _ Hi L) as (nm & d & _ & Hf). 
      assert (Hs : nth_error s i = Some (nm, Some v)).
      { apply K2. rewrite nth_error_app1; [exact Hf|]. rewrite <- (map_length fst), fill_pos_names, map_length. exact L. }
      apply F2 in Hs. apply (map_nth_error snd) in Hs. exact Hs. }
    assert (G : firstn (length vs) (firstn (length (sg_pos sg)) (map snd n)) = firstn (length (sg_pos sg)) vs).
    { apply nth_ext_opt. intros i. rewrite !nth_firstn. destruct (Nat.ltb_spec i (length vs)) as [L1|L1]; destruct (Nat.ltb_spec i (length (sg_pos sg))) as [L2|L2]; try reflexivity.
      - destruct (nth_error vs i) as [v|] eqn:Ev; [apply V; auto|apply nth_error_None in Ev; lia].
      - symmetry. apply nth_error_None. exact L1. }
    rewrite G. apply firstn_skipn.
  - split.
    + intros St. rewrite St in E0. cbn [negb] in E0. rewrite andb_true_r in E0. apply Nat.ltb_ge in E0. apply skipn_all2. exact E0.
    + split; [|split].
      * intros k v Hi. destruct (K3 _ _ Hi) as [Hs|(Hk & Hn & He)].
        -- left. apply In_nth_error in Hs. destruct Hs as [i Hs]. apply F2 in Hs. apply nth_error_In in Hs. exact Hs.
        -- right. split; [exact Hk|]. split; [|exact He]. rewrite F1, K1. rewrite map_app, !fill_pos_names in Hn. exact Hn.
      * intros k v Hi. destruct (K6 _ _ Hi) as [[]|Hk]. exact Hk.
      * intros k v Hi. destruct (F3 _ _ Hi) as [Hs|Hd]; [|auto]. destruct (K4 _ _ Hs) as [Hf|Hf]; [|auto]. left.
        apply in_app_or in Hf. destruct Hf as [Hf|Hf]; [eapply fill_pos_in; exact Hf|exfalso; exact (fill_none _ _ _ Hf)].
Qed.
(** Calls that succeed: one parameter for the net object, others with defaults. *)
Lemma fill_kw_free : forall ks s extra, (forall k v, In (k, v) ks -> ~ In k (map fst s)) -> fill_kw true s extra ks = Ok (s, extra ++ ks).
Proof.
  induction ks as [|[k v] ks IH]; intros s extra H; cbn [fill_kw]; [rewrite app_nil_r; reflexivity|].
  rewrite (proj2 (slot_set_none s k v)) by (apply (H k v); left; reflexivity). rewrite IH by (intros k' v' Hi; apply (H k' v'); right; exact Hi). rewrite <- app_assoc. reflexivity.
Qed.
Lemma finish_defaults : forall ps, Forall (fun p => snd p = true) ps -> finish (fill_pos ps []) ps = Ok (map (fun p => (fst p, VDefault)) ps).
Proof.
  induction ps as [|[n d] ps IH]; intros F; [reflexivity|]. inversion F; subst. cbn [snd] in *. subst. cbn [fill_pos finish bindr]. rewrite IH by assumption. reflexivity.
Qed.
