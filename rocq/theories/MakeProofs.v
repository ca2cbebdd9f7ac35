From Verif Require Import BaseLemmas CodecLemmas Dict DictLemmas PacketModel TestModel MakeModel MakeSpec.
#[local] Open Scope list_scope.

Lemma check_wilds_iff known l : forall ws, check_wildcards known l = Ok ws <-> right_wilds known ws l.
Proof.
  induction l as [|w t IH]; intros ws.
  - split; [intros H; apply ok_inj in H; subst; split; [reflexivity|constructor]|]. intros [H _]. destruct ws; [reflexivity|discriminate].
  - cbn [check_wildcards]. split.
    + intros H. assert (E : exists c s, w = WSeq [WCls c; WStr s] /\ known c s = true /\ check_wildcard known w = Ok (c, s)).
      { destruct w as [[|a [|b [|]]]|]; try discriminate. cbn [check_wildcard] in *. destruct a as [c| | |]; try discriminate. destruct b; try discriminate.
        destruct (known c s) eqn:K; [|discriminate]. exists c, s. rewrite K. auto. }
      destruct E as (c & s & -> & K & C). rewrite C in H. cbn [bindr] in H. destruct (check_wildcards known t) as [r|] eqn:R; [|discriminate]. cbn [bindr] in H.
      apply ok_inj in H. subst ws. destruct (proj1 (IH r) eq_refl) as [A B]. split; [cbn [map fst snd]; now rewrite <- A|constructor; auto].
    + intros [A B]. destruct ws as [|[c s] ws]; [discriminate|]. cbn [map fst snd] in A. injection A as -> A. inversion B as [|? ? K B']; subst. cbn [check_wildcard fst snd] in *.
      rewrite K. cbn [bindr]. rewrite (proj2 (IH ws) (conj eq_refl B')). reflexivity.
Qed.
Lemma check_preds_iff l : forall fs, check_predicates l = Ok fs <-> right_preds fs l.
Proof.
  unfold right_preds. induction l as [|p t IH]; intros fs.
  - split; [intros H; apply ok_inj in H; now subst|]. destruct fs; [reflexivity|discriminate].
  - cbn [check_predicates]. split.
    + intros H. destruct p as [[f| |e]|]; try discriminate. cbn [check_predicate bindr] in H. destruct (check_predicates t) as [r|]; [|discriminate]. cbn [bindr] in H.
      apply ok_inj in H. subst fs. cbn [map]. now rewrite <- (proj1 (IH r) eq_refl).
    + intros H. destruct fs as [|f fs]; [discriminate|]. cbn [map] in H. injection H as -> ->. cbn [check_predicate bindr]. rewrite (proj2 (IH fs) eq_refl). reflexivity.
Qed.
Lemma collect_iff {A} (m : option (many A)) o l : collect m o = Ok l <-> given m o l.
Proof.
  unfold collect, given. destruct m as [[x|]|].
  - split; [intros H; apply ok_inj in H; subst; split; [discriminate|reflexivity]|now intros [_ ->]].
  - split; [discriminate|intros [H _]; contradiction].
  - split; [intros H; apply ok_inj in H; subst; split; [discriminate|reflexivity]|now intros [_ ->]].
Qed.

(** ** Which arguments are accepted *)
Lemma readable_unit q : (exists x, readable q = Ok x) <-> readable q = Ok tt.
Proof. split; [intros [[] H]; exact H|eauto]. Qed.
Lemma matcher_ok p exact wc fs : (exact = true -> readable p = Ok tt) -> matcher_new p exact wc fs = Ok (mkM p exact wc fs).
Proof. intros H. unfold matcher_new. destruct exact; [rewrite (H eq_refl)|]; reflexivity. Qed.
Lemma matcher_inv p exact wc fs m : matcher_new p exact wc fs = Ok m -> (exact = true -> readable p = Ok tt).
Proof. unfold matcher_new. intros H ->. destruct (readable p) as [[]|]; [reflexivity|discriminate]. Qed.

Lemma pairs_usable known exact ws ps fs wcs : check_wildcards known ws = Ok wcs -> check_predicates ps = Ok fs -> forall n args, (List.length args <= n)%nat -> forall d,
  (exists e, make_pairs known args exact ws ps d = Ok e) <-> usable_args exact args.
Proof.
  intros Hw Hp. induction n as [|n IH]; intros args L d.
  - destruct args; [|cbn in L; lia]. cbn. split; [auto|eauto].
  - destruct args as [|dev [|p t]]; [cbn; split; eauto|cbn; split; [intros [e H]; discriminate|contradiction]|]. cbn [make_pairs usable_args]. unfold make_matcher. rewrite Hw, Hp. cbn [bindr].
    cbn [List.length] in L. split.
    + intros [e H]. destruct p as [s|p|z]; [| |discriminate].
      * destruct dev as [s0|q|z]; [| discriminate |]; cbn [bindr key_of_arg] in H;
          (split; [discriminate|]; split; [discriminate|]; split; [discriminate|]; eapply (IH t); [lia|exists e; exact H]).
      * destruct (matcher_new p exact wcs fs) as [m|] eqn:M; [|discriminate]. cbn [bindr] in H. pose proof (matcher_inv _ _ _ _ _ M) as R.
        destruct dev as [s0|q|z]; [| discriminate |]; cbn [bindr key_of_arg] in H;
          (split; [discriminate|]; split; [discriminate|]; split; [intros q E; injection E as <-; exact R|]; eapply (IH t); [lia|exists e; exact H]).
    + intros (A & B & C & D). destruct p as [s|p|z]; [| |exfalso; exact (B z eq_refl)].
      * destruct dev as [s0|q|z]; [|exfalso; exact (A q eq_refl)|]; cbn [bindr key_of_arg]; apply IH; auto; lia.
      * rewrite (matcher_ok p exact wcs fs (C p eq_refl)). destruct dev as [s0|q|z]; [|exfalso; exact (A q eq_refl)|]; cbn [bindr key_of_arg]; apply IH; auto; lia.
Qed.
Lemma usable_even exact : forall n args, (List.length args <= n)%nat -> usable_args exact args -> Nat.odd (List.length args) = false.
Proof. induction n as [|n IH]; intros args L U; [destruct args; [reflexivity|cbn in L; lia]|]. destruct args as [|a [|b t]]; [reflexivity|destruct U|]. cbn [List.length] in *.
  rewrite Nat.odd_succ, Nat.even_succ. apply IH; [lia|apply U]. Qed.
Lemma usable_odd exact args : usable_args exact args -> Nat.odd (List.length args) = false.
Proof. exact (usable_even exact _ args (Nat.le_refl _)). Qed.
(** Something wrong with the wildcards or predicates is found at the first pair. *)
Lemma pairs_checked known exact ws ps args d e : args <> [] -> make_pairs known args exact ws ps d = Ok e ->
  (exists wcs, check_wildcards known ws = Ok wcs) /\ (exists fs, check_predicates ps = Ok fs).
Proof.
  intros N H. destruct args as [|a [|b t]]; [contradiction|discriminate|]. cbn [make_pairs] in H. unfold make_matcher in H.
  destruct (check_wildcards known ws) as [wcs|]; [|discriminate]. cbn [bindr] in H. destruct (check_predicates ps) as [fs|]; [|discriminate]. eauto.
Qed.

Definition exact_of (kw : kwargs) : bool := match k_exact kw with Some b => b | None => true end.
Theorem accepted_iff known args kw : (exists e, make_out known args kw = Ok e) <->
  exists ps ws fs wcs, given (k_predicates kw) (k_predicate kw) ps /\ given (k_wildcards kw) (k_wildcard kw) ws /\
    right_preds fs ps /\ right_wilds known wcs ws /\ args <> [] /\ usable_args (match k_exact kw with Some b => b | None => true end) args.
Proof.
  fold (exact_of kw). unfold make_out. fold (exact_of kw). split.
  - intros [e H]. destruct (collect (k_predicates kw) (k_predicate kw)) as [ps|] eqn:P; [|discriminate]. cbn [bindr] in H.
    destruct (collect (k_wildcards kw) (k_wildcard kw)) as [ws|] eqn:W; [|discriminate]. cbn [bindr] in H. destruct args as [|a args]; [discriminate|].
    destruct (Nat.odd _); [discriminate|]. assert (NN : a :: args <> []) by discriminate. destruct (pairs_checked _ _ _ _ _ _ _ NN H) as ([wcs Hw] & fs & Hp).
    exists ps, ws, fs, wcs. split; [now apply collect_iff|]. split; [now apply collect_iff|]. split; [now apply check_preds_iff|]. split; [now apply check_wilds_iff|]. split; [discriminate|].
    eapply (pairs_usable known _ ws ps fs wcs Hw Hp _ _ (Nat.le_refl _)). exists e. exact H.
  - intros (ps & ws & fs & wcs & P & W & F & V & N & U). apply collect_iff in P, W. rewrite P, W. cbn [bindr]. destruct args as [|a args]; [contradiction|].
    rewrite (usable_odd _ _ U). apply (proj2 (pairs_usable known (exact_of kw) ws ps fs wcs (proj2 (check_wilds_iff _ _ _) V) (proj2 (check_preds_iff _ _) F) _ _ (Nat.le_refl _) [])). exact U.
Qed.

(** ** What is expected then *)
Definition lift (d : dict matcher) : out_event := map (fun x => (KS (fst x), RPkt (snd x))) d.
Lemma lift_set s m d : kset (KS s) (RPkt m) (lift d) = lift (dset s m d).
Proof. induction d as [|[k v] t IH]; [reflexivity|]. cbn [lift map fst snd kset dset key_eqb]. destruct (str_eqb s k); [reflexivity|]. cbn [map fst snd]. f_equal. exact IH. Qed.
Lemma lift_get s d : kget (KS s) (lift d) = option_map RPkt (dget s d).
Proof. induction d as [|[k v] t IH]; [reflexivity|]. cbn [lift map fst snd kget dget key_eqb]. destruct (str_eqb s k); [reflexivity|exact IH]. Qed.

Lemma pairs_out known exact ws ps fs wcs : check_wildcards known ws = Ok wcs -> check_predicates ps = Ok fs -> forall pairs d,
  make_pairs known (List.concat (map (fun x => [GStr (fst x); GPkt (snd x)]) pairs)) exact ws ps (lift d) =
  (e <- out_args pairs exact wcs fs d;; Ok (lift e)).
Proof.
  intros Hw Hp. induction pairs as [|[dev p] t IH]; intros d; [reflexivity|]. cbn [map fst snd List.concat app make_pairs out_args]. unfold make_matcher. rewrite Hw, Hp. cbn [bindr].
  destruct (matcher_new p exact wcs fs) as [m|]; [|reflexivity]. cbn [bindr key_of_arg]. rewrite lift_set. apply IH.
Qed.
Theorem made known pairs args kw ps ws fs wcs : right_args pairs args -> pairs <> [] ->
  given (k_predicates kw) (k_predicate kw) ps -> given (k_wildcards kw) (k_wildcard kw) ws -> right_preds fs ps -> right_wilds known wcs ws ->
  make_out known args kw = (o <- out_new pairs (match k_exact kw with Some b => b | None => true end) wcs fs;; Ok (lift (oe_wait o))).
Proof.
  intros -> N P W F V. apply collect_iff in P, W. unfold make_out. rewrite P, W. cbn [bindr]. destruct pairs as [|[dev p] t]; [contradiction|].
  assert (O : Nat.odd (List.length (List.concat (map (fun x : str * packet => [GStr (fst x); GPkt (snd x)]) ((dev, p) :: t)))) = false).
  { generalize ((dev, p) :: t). intros l. induction l as [|x r IH]; [reflexivity|]. cbn [map List.concat app List.length]. rewrite Nat.odd_succ, Nat.even_succ. exact IH. }
  rewrite O. cbn [map List.concat app fst snd]. pose proof (pairs_out known (match k_exact kw with Some b => b | None => true end) ws ps fs wcs
    (proj2 (check_wilds_iff _ _ _) V) (proj2 (check_preds_iff _ _) F) ((dev, p) :: t) []) as X. cbn [lift map List.concat app fst snd] in X. rewrite X.
  unfold out_new. destruct (out_args _ _ _ _ _); reflexivity.
Qed.

Lemma out_args_get exact wcs fs pairs : forall d e, out_args pairs exact wcs fs d = Ok e -> forall dev,
  dget dev e = fold_left (fun acc x => if str_eqb dev (fst x) then Some (mkM (snd x) exact wcs fs) else acc) pairs (dget dev d).
Proof.
  induction pairs as [|[k p] t IH]; intros d e H dev; cbn [out_args] in H; [apply ok_inj in H; now subst|].
  destruct (matcher_new p exact wcs fs) as [m|] eqn:M; [|discriminate]. cbn [bindr] in H. rewrite (IH _ _ H dev). cbn [fold_left fst snd]. f_equal.
  assert (E : m = mkM p exact wcs fs). { unfold matcher_new in M. destruct (if exact then readable p else Ok tt); [|discriminate]. cbn [bindr] in M. now apply ok_inj in M. } subst m.
  destruct (str_eqb dev k) eqn:E; [apply String.eqb_eq in E; subst k; apply dget_dset_same|]. apply dget_dset_other. intros ->. unfold str_eqb in E. now rewrite String.eqb_refl in E.
Qed.
Lemma fold_last {M} (g : packet -> M) dev pairs : forall acc p, last_given pairs dev p -> fold_left (fun acc x => if str_eqb dev (fst x) then Some (g (snd x)) else acc) pairs acc = Some (g p).
Proof.
  intros acc p (a & b & -> & N). rewrite fold_left_app. cbn [fold_left fst snd]. unfold str_eqb at 1. rewrite String.eqb_refl.
  assert (X : forall l o, ~ In dev (map fst l) -> fold_left (fun acc (x : str * packet) => if str_eqb dev (fst x) then Some (g (snd x)) else acc) l o = o).
  { induction l as [|[k q] t IH]; intros o Hn; [reflexivity|]. cbn [fold_left fst snd]. cbn [map fst] in Hn. destruct (str_eqb dev k) eqn:E; [|apply IH; intros I; apply Hn; now right].
    apply String.eqb_eq in E. exfalso. apply Hn. now left. }
  now apply X.
Qed.
Lemma fold_some {M} (g : packet -> M) dev pairs : forall acc, fold_left (fun acc x => if str_eqb dev (fst x) then Some (g (snd x)) else acc) pairs acc <> None -> acc <> None \/ In dev (map fst pairs).
Proof.
  induction pairs as [|[k p] t IH]; intros acc H; [now left|]. cbn [fold_left fst snd] in H. destruct (IH _ H) as [A|A]; [|right; now right].
  destruct (str_eqb dev k) eqn:E; [|now left]. apply String.eqb_eq in E. right. now left.
Qed.
Theorem expects pairs exact wcs fs o : out_new pairs exact wcs fs = Ok o ->
  (forall dev p, last_given pairs dev p -> dget dev (oe_wait o) = Some (mkM p exact wcs fs)) /\
  (forall dev, dget dev (oe_wait o) <> None -> In dev (map fst pairs)) /\ oe_got o = [].
Proof.
  unfold out_new. destruct pairs as [|x t] eqn:E; [discriminate|]. rewrite <- E. intros H. destruct (out_args pairs exact wcs fs []) as [d|] eqn:D; [|discriminate].
  cbn [bindr] in H. apply ok_inj in H. subst o. cbn [oe_wait oe_got]. pose proof (out_args_get _ _ _ _ _ _ D) as G. split; [|split; [|reflexivity]].
  - intros dev p L. rewrite G. exact (fold_last (fun q => mkM q exact wcs fs) dev pairs None p L).
  - intros dev N. rewrite G in N. destruct (fold_some (fun q => mkM q exact wcs fs) dev pairs None N) as [A|A]; [now contradiction A|exact A].
Qed.
Theorem made_expects known pairs args kw ps ws fs wcs : right_args pairs args -> pairs <> [] ->
  given (k_predicates kw) (k_predicate kw) ps -> given (k_wildcards kw) (k_wildcard kw) ws -> right_preds fs ps -> right_wilds known wcs ws ->
  (forall dev p, In (dev, p) pairs -> match k_exact kw with Some b => b | None => true end = true -> readable p = Ok tt) ->
  exists e, make_out known args kw = Ok e /\
    (forall dev p, last_given pairs dev p -> kget (KS dev) e = Some (RPkt (mkM p (match k_exact kw with Some b => b | None => true end) wcs fs))) /\
    (forall dev, kget (KS dev) e <> None -> In dev (map fst pairs)).
Proof.
  intros A N P W F V R. pose proof (made known pairs args kw ps ws fs wcs A N P W F V) as M.
  assert (E : exists e, make_out known args kw = Ok e).
  { apply accepted_iff. exists ps, ws, fs, wcs. repeat (split; [assumption|]). unfold right_args in A. split; [subst args; destruct pairs as [|[]]; [contradiction|discriminate]|]. subst args. clear N M. induction pairs as [|[dev p] t IH]; [exact I|].
    cbn [map fst snd List.concat app usable_args]. split; [discriminate|]. split; [discriminate|]. split; [intros q Q; injection Q as <-; apply (R dev p); now left|]. apply IH. intros d q I0. apply (R d q). now right. }
  destruct E as [e E]. exists e. split; [exact E|]. rewrite E in M. destruct (out_new pairs _ wcs fs) as [o|] eqn:O; [|discriminate]. cbn [bindr] in M. apply ok_inj in M. subst e.
  destruct (expects _ _ _ _ _ O) as (X & Y & _). split.
  - intros dev p L. rewrite lift_get, (X dev p L). reflexivity.
  - intros dev H. rewrite lift_get in H. apply Y. intros Z. rewrite Z in H. now apply H.
Qed.

(** ** copyfromlastout *)
Lemma unpack_all_ok l : Forall (fun c => exists x, c = CSeq x /\ List.length x = 5%nat) l -> exists rs, unpack_all l = Ok rs /\ l = map CSeq rs.
Proof. induction 1 as [|c t (x & -> & L) H (rs & A & B)]; [exists []; auto|]. cbn [unpack_all unpack5]. rewrite L, A. cbn. exists (x :: rs). split; [reflexivity|]. now rewrite B. Qed.
Theorem copy_one l s t : l = CStr s :: t -> List.length l = 5%nat -> exists c, make_copy (Some (CSeq l)) = Ok c /\ rules_of c = Ok [l].
Proof. intros -> L. exists (Some (CSeq [CSeq (CStr s :: t)])). unfold make_copy. rewrite L. split; [reflexivity|]. cbn [rules_of unpack_all unpack5]. rewrite L. reflexivity. Qed.
Theorem copy_many rs : rs <> [] -> Forall (fun r => List.length r = 5%nat) rs -> exists c, make_copy (Some (CSeq (map CSeq rs))) = Ok c /\ rules_of c = Ok rs.
Proof.
  intros N H. exists (Some (CSeq (map CSeq rs))). split.
  - destruct rs as [|r t]; [contradiction|]. cbn [make_copy map is_str]. rewrite Bool.andb_false_r. reflexivity.
  - cbn [rules_of]. clear N. induction H as [|r t L H IH]; [reflexivity|]. cbn [map unpack_all unpack5]. rewrite L. cbn [Nat.eqb bindr]. rewrite IH. reflexivity.
Qed.

(** ** Which exception *)
Lemma bad_wild_first known a w e t : Forall (fun x => exists y, check_wildcard known x = Ok y) a -> bad_wild known w e -> check_wildcards known (a ++ w :: t) = Err e.
Proof.
  intros A B. induction A as [|x a [y X] _ IH]; cbn [app check_wildcards].
  - assert (C : check_wildcard known w = Err e).
    { destruct B as [|l N|b|x b N1 N2|c b N|c s K]; cbn [check_wildcard]; try reflexivity.
      - destruct l as [|p [|q [|r l]]]; try reflexivity. contradiction.
      - destruct x; try reflexivity; [destruct (N1 c eq_refl)|contradiction].
      - destruct b; try reflexivity. destruct (N s eq_refl).
      - rewrite K. reflexivity. }
    rewrite C. reflexivity.
  - rewrite X. cbn [bindr]. rewrite IH. reflexivity.
Qed.
Lemma bad_pred_first a p e t : Forall (fun x => exists f, x = PStr (EFun f)) a -> bad_pred p e -> check_predicates (a ++ p :: t) = Err e.
Proof.
  intros A B. induction A as [|x a [f ->] _ IH]; cbn [app check_predicates].
  - destruct B; reflexivity.
  - cbn [check_predicate bindr]. rewrite IH. reflexivity.
Qed.
Lemma right_wilds_ok known ws l : right_wilds known ws l -> Forall (fun x => exists y, check_wildcard known x = Ok y) l.
Proof. intros [-> F]. induction F as [|[c s] ws K _ IH]; cbn [map]; constructor; auto. exists (c, s). cbn [check_wildcard fst snd] in *. rewrite K. reflexivity. Qed.
Lemma first_fault known args kw ps ws : args <> [] -> Nat.odd (List.length args) = false -> given (k_predicates kw) (k_predicate kw) ps -> given (k_wildcards kw) (k_wildcard kw) ws ->
  (forall wcs a w t e, ws = a ++ w :: t -> right_wilds known wcs a -> bad_wild known w e -> make_out known args kw = Err e) /\
  (forall wcs fs a p t e, right_wilds known wcs ws -> ps = a ++ p :: t -> right_preds fs a -> bad_pred p e -> make_out known args kw = Err e).
Proof.
  intros N O P W. apply collect_iff in P, W. unfold make_out. rewrite P, W. cbn [bindr]. rewrite O. destruct args as [|d [|p args]]; [contradiction|discriminate|]. cbn [make_pairs]. unfold make_matcher. split.
  - intros wcs a w t e -> R B. rewrite (bad_wild_first known a w e t (right_wilds_ok _ _ _ R) B). reflexivity.
  - intros wcs fs a q t e R -> F B. apply check_wilds_iff in R. rewrite R. cbn [bindr]. rewrite (bad_pred_first a q e t); [reflexivity| |exact B].
    rewrite F. apply Forall_forall. intros x I. apply in_map_iff in I as (f & <- & _). eauto.
Qed.
